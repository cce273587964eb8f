# Machine-checked model of votchallenge/trax

Tool: Rocq/Coq 8.16.1, standard library only. Sources in `rocq/theories`, logical name `Verif`.

## Conventions

* A byte is an `N` in 0..255. A C string is the list of its bytes before the NUL. Signedness of `char` is modelled
  where it matters (x86/ARM-Linux-gcc default: the repository is built with `char` signed, see `read_character`).
* A C function whose behaviour can be undefined, abort (failed `assert`) or not terminate returns an outcome type
  with distinct values for these (`UB`, `Abort`, `NoFuel`), never a normal-looking value.
* Each definition of a model file cites the `/repo` file and lines it follows and says what was simplified.
* Files: `X.v` (model, no proofs), `XSpec.v` (small independent specification, where one is needed),
  `XProofs.v` (lemmas), `Properties_*.v` (only theorems closed with `exact`, each followed by `Print Assumptions`, and
  the non-vacuity `Example`s next to them).
* A property which the code violates is answered by a theorem `..._refuted` (a concrete witness computed in the model)
  and by the strongest guarded theorem, suffixed `_partial`.

## Plan per property

| id | what is modelled | how it is proved |
|----|------------------|------------------|
| C01 | `read_message` as a fold of a one-character step over the remaining bytes, state = (type, complete, state, key buffer, value buffer, arguments, properties); `write_message` as a byte list | symbolic run of the automaton over each escaped string, induction on strings/lists |
| C02 | reading repeatedly with the reader state threaded through | induction on the message list, C01 for every possible previous reader state |
| C03 | `read_character` with its 4096-byte buffer fed by a list of read results | simulation with the unbuffered reader |
| C04 | `write_buffer` with an oracle giving the count of each write call | induction on the schedule |
| C05 | same as C01 | prefix automaton lemma for a line that is not a message |
| C06 | `write_message` | counting newlines through escaping |
| C07 | reader + explicit growth of `string_buffer`/`string_list` memory | invariants position <= size = allocation; consumed bytes = a prefix of input |
| C08 | reader at end of stream | refuted by the stale message type; guarded theorem: fresh stream |
| C09 | signed `char` conversion in `read_character` | refuted; guarded theorem is C01 |
| C10 | reader | refuted; guarded theorem for lines that are not messages (C05) and exact description of what leaks |
| C11 | log output threaded through reader and writer | simulation |
| C12, C13 | `strmap.c`: 32 buckets of pairs, djb2 hash mod 2^64, allocation sizes | refinement to a function key -> option value, invariants |
| C14, C15 | `trax_properties_set_int/get_int` (decimal printing, `sscanf("%d")`) | decimal round trip; refuted on the empty text |
| C16 | `trax_properties_append`, `copy_properties` | refinement on finite maps; refuted for overwrite = 0 |
| C17, C18 | `base64.c` with output memory as bytes written | spec: RFC 4648 by bit strings; induction in steps of three bytes; refuted for malformed padding |
| C19-C23 | `image_encode`, `image_decode`, `parse_uri`, row accessors | round trip, refutations for URL, buffer, rows |
| C24-C27 | `region_string`, `region_parse`, `_parse_sequence`, single-precision numbers as dyadic rationals with explicit rounding | arithmetic on Z; RLE induction; refutations; for C27 an exact characterisation of the harmless texts and of the aborting ones (RegionSafeSpec, stated on the text alone) |
| C28, C29 | `region_get_mask_offset`, mask to rectangle | index arithmetic over lists |
| C30 | bounds computation | order reasoning on Z/Q; refuted for negative coordinates in the conversion |
| C31 | region_compute_overlap: clipped boxes, the choice between a common window and two windows, the counting loops | counting lemmas; monotone rounding shows that drawn pixels stay in the rounded box, for polygons, any rectangles and masks; the common window and symmetry by integer areas; refuted: pixels of a polygon depend on the window |
| C32 | `rasterize_polygon` with checked writes, default and legacy | loop invariants; for legacy also: range of the node by monotone rounding, even number of nodes per row, disjoint half-open runs give the exact sum |
| C33, C34 | format list encoders/decoders | finite sweep lifted; refuted |
| C35-C40 | handles, client/server functions over the message layer | composition with C01/C02, C19, C24-C26 |
| C41 | object/image lists | array lemmas |
| C42, C43 | heap model of `Wrapper` reference counts | invariant over operation sequences; refuted for self-assignment |
| C44 | `line_buffer_push/flush` | simulation with a line splitter |
| C45 | `__next_token`, `parse_command`, command construction in `cli.cpp` | induction |
| C46 | mutex operations as atomic steps of a transition system | invariant over interleavings |
| C47 | deadline arithmetic | lia; refuted for timeouts above one second |
| C48 | main loop of `cli.cpp` with an oracle for the tracker | invariant output length = frame |
| C49 | grammar of the documentation as a relation, the reader of C01 | automaton run over the grammar; refuted for an escaped first character |
| C50 | `trax_properties_set_float/get_float`, printf/strtod of Num.v | error bound of `%f`, exact rational arithmetic |
| C51, C52 | rasterisation of rectangles, conversion to masks | interval arithmetic on SpecFloat values, loop invariants |
| C53 | `region_contains_point` on masks | index arithmetic; refuted for negative positions |
| C54, C55 | image text grammar, `image_decode` of any text | case split on the prefix; refutations |
| C56 | hello message without optional properties | symbolic run; refuted |
| C57 | `wait` functions on closed streams | case analysis of the loops; refuted |
| C58, C62 | trajectory files and image list files as byte lists | induction on lines |
| C59, C60 | `load_images`, timings of the main loop | finite case split; refinement to `expected` |
| C61 | `image_get_size` on PNG, GIF and JPEG headers | loop invariant "the buffer shows the file at pos" |
| C63 | `region_contains_point` on rectangles | rounding is monotone on representable bounds (FloatMono); refuted for rounded sides |
| C64 | `point_in_polygon` | each computed crossing is on the right side of every integer (FloatMono); exact even-odd rule; convex polygons by one side up and one side down per row; refutations |
| C65 | region functions of the API on a store of regions, coordinate arrays and pixel arrays (RegionApi) | refinement to independent values; invariant: every live array belongs to exactly one live region |
| C66 | rasterisation (RegionGeom), the same definitions as C32 | error bound for the node of a side by monotone rounding; on a row of a convex polygon the nodes have two values, so the row is one run |
| C67 | descriptor tables of parent and child, pipe, posix_spawn with its file actions, environment (Process) | the six descriptors are new and increasing; wiring computed by table lookups for all tables |
| C68 | histories of start, is_alive, stop, kill and endings of the child (Process) | invariant over histories: running flag and status agree with the life of the child |
| C69 | kill and waitpid on a child whose number may be reused once it was waited for (Process) | invariant: while the running flag is set the child was not waited for |
| C70 | cleanup and destruction; members that the constructor leaves uninitialised (Process) | invariant: the object's descriptors are the six opened ones; witnesses for the failing cases |
| C71 | the same; end of file when no process holds the write end (ProcessSpec) | invariant: the client's table never changes until destruction, so the property is refuted for every history |
| C72 | set_environment, copy_environment, getenv (Process) | induction over the environment |
| C73 | TrackerProcess: watchdog turns, start_watchdog, requests and launches (Tracker) on top of Process | invariant over all histories; the counter after n calm turns by induction |
| C74 | the same with a trace of launches, requests and answers (Tracker, order in TrackerSpec) | invariant: tracking is true only directly after a successful answer; refuted for reset and query by evaluation |
| C75 | stop_process with its three waiting loops (Tracker) | case analysis on the first sleep in which the child ends, lifted to reachable states |
| C76 | the same; descriptor tables from Process, a count of lost process objects | invariant: the table is the original one plus the six descriptors of the current process; refutations by evaluation |
| C77 | ready, watchdog turns, crashes as events | invariant of reachable states |
| C78 | the three threads of a tracker object as programs interleaved instruction by instruction (Threads) | lock order checked over the programs, invariant over all schedules |
| C79 | same | measure that every step decreases once both flags are off, with C78 |
| C80 | same, with deleted objects | abstract states for process and client (what a thread knows of the pointer), checked over the programs, preserved by every step of every thread; schedules that crash |
| C81 | same, with the two halves of the decrement | invariant of the watchdog while the user's thread rests; a schedule that stops an idle tracker |
| C82 | mat_to_image, image_to_mat over headers and memory (OpenCv) | gather lemma (byte of the result = byte of the source), general |
| C83 | region_to_mat, mat_to_region | loop invariant over the rows written; general refutation outside |
| C84 | region_to_rect, rect_to_region, points | exact float lemmas; nearest integer for all floats |
| C85 | State constructor and destructor for sockets over descriptors and ports (Sockets) | invariant over histories of objects; loop lemma for the first usable port |
| C86 | describing a process, trax_server_setup_v's choice (Sockets on Process) | composition of the environment and descriptor lemmas of Process |
| C87 | connect loop of message.c | induction on the answers |
| C88 | select and accept with a queue of connections in time | invariant: the queue is empty between launches |
| C89 | image_to_array, array_to_image over column-major arrays (Matlab) | loops as sets of writes (puts), index bijection, general |
| C90 | region_to_array, array_to_region | same; exact conversion float to double and back |
| C91 | properties to cells and structures and back | enumeration lemmas of Props; induction on the rows |
| C92 | names of formats, lists of images | tables by lower case; induction on the names; case analysis on three channels |
| C93 | arguments of setup, wait, quit | induction on the pairs of arguments |
| C94 | vectors and C structures of ObjectList and ImageList (WrapLists on Wrap) | invariant: counters, one owner per uncounted structure, structure agrees with vector |
| C95 | the vectors alone | refinement step by step to lists as values, for every run without UB |
| C96 | strict UTF-8 codec, the class Properties over the model of the C dictionary | codec = relation between code points and bytes of the Unicode standard, by induction; refinement to finite maps; witnesses of the violations |
| C97 | calls of the log callback in message.c, the conversion of the argument in Logger | induction over pieces of the message; witnesses |
| C98 | NumPy arrays as strided views of memory, image.py over the model of the C images | bytes of elements by induction on the shape; round trip by positions; witnesses |
| C99 | class Mask of region.py, padding | positions in rows by induction; witnesses |
| C100 | Server and Client constructors, names and codes | bits of codes by induction over the names, then C35 for the bytes; witnesses |
| C101 | wait, status, quit, initialize, frame and the wrapping of lists | rounds of C36 between conversions that are inverse to each other; induction over rounds; witnesses |
| C102 | memory of the session functions of trax.c | every function keeps the bag of blocks it is given except for what it returns; induction over messages, objects and calls; leaks by induction over repetitions |
| C103 | ownership of C structures by Python objects, collected in any order | invariant: the blocks in use are those of the session, of the live objects and of the rest; induction over the steps of a program; leaks by computation and induction |
| C104 | getopt.c word by word, the option switches of the three programs | step lemmas for a letter, an attached and a separate argument; induction over letters and words; a measure for arbitrary command lines; defects by computation |
| C105 | the loop of traxtest against an arbitrary tracker | induction over frames and rounds, with the script as specification |
| C106 | the selection loop of traxplayer as a function of user events, and its start | induction over the events; never playing by cases |
| C107 | the reports of the session functions as functions of handle and arguments; set_error and its formatting | each sending call by cases on its tests in order; waits by induction over the messages; counterexamples by computation |
| C108 | the argument loop of the Matlab client over a list of arrays, as for the server function (C93) | induction over the pairs: each has the effect of its wish; effects of the same kind override; infinite timeouts refuted by computation |
| C109 | the client's loop over a list of turns (callback as a function, the tracker's answers and failures), with the events seen outside | induction over the turns with the invariant that the status holds the last answer; stale properties refuted by a run; order of events by induction without assumptions |
| C110 | initialize, frame, wait, reply of Client, ServerMOT, ServerSOT over the handles, rounds as in C36 with one object | each round is reduced to a round of the C functions (C36), with the copies of regions and properties; induction over the rounds; lost reply properties as a theorem for all handles and a session |
| C111 | traxserver.cpp as one function on the static handle: calls with any arguments; connections lost and closed are recorded | case analysis over operations; quit messages from the C functions; induction over calls for lost connections; second setup and 'state' refuted |
| C112 | setup, wait and status of traxserver.cpp with the conversions of helpers.cpp, against a C++ client | setup gives metadata (C92, C93) that the handshake conveys (C35); each round is reduced to one of C110 and to the conversions (C89 to C91); induction over rounds |
| C113 | the C++ class Metadata with its constructors and getters, and Handle::metadata, over the metadata of the handshake model | induction over the custom properties; the handshake theorem (C35) gives what the client's handle holds; custom properties refuted |
| C114 | the C++ class Properties as an optional dictionary, std::map as sorted list of pairs | histories of C++ calls are translated to histories of the C dictionary (C12, C14, C50); invariant by induction over calls; sorted insertion for maps; double default refuted |
| C115 | the loop of native_static.c over the C session functions, with the list of objects it keeps and a count of dictionaries | each round is a session round (C36) whose reply is computed from what arrived; regions that arrived arrive again unchanged (C25, C26); induction over requests; leak refuted |
| C116 | the client functions of C35 and C36 on a stream with the tracker's own lines inserted between messages | the reader is at its start after every plain line (C05), so two clients that differ only in such lines stay alike through every call (simulation); with C35 and C36 sessions follow; unfinished lines and bytes above 127 refuted |
| C117 | PyRegions (region.py without masks; ctypes' conversion of arguments; the iterator of a polygon) | the error of two roundings bounded with the rounding lemmas of Num, exactness for numbers that single precision holds; induction over the list for polygons and over the rest of the points for loops; rounding, wrapped codes, the leak and the iterator refuted |
| C118 | DictMem (strmap.c and the dictionary functions of trax.c with every block, and a plan saying which allocations fail) | refinement to the map of C12 (erasing the blocks); counting of blocks as multisets; induction over calls |
| C119 | Evaluate: the loop of Cli over a live connection to Static (handles, wire, C++ client functions), and the three files | invariant of the connection per request (C115), induction over frames against an inductive specification, composition with C58 and C62 |
| C120 | RegionHeap: every region function over RegionApi's memory, including temporary regions | a relation between application names, heap positions and forgotten blocks, one lemma per function, induction over the calls; leak refuted |
| C121 | Handle's sessions with RegionGeom's conversions; spec of formats, preference and place in NegotiateSpec | the client writes the same bytes as for the converted regions, then C36's sessions; conversions of integer coordinates are exact; conversions of polygons, two-point polygons and missing formats refuted |
| C122 | Criterion: options and environment, image size, bounds, overlap, comparison, and Cli's loop with it; spec of visible pixels, index and run in CriterionSpec | C31's quotient, strengthened to correct rounding (order with every single-precision number is kept), compared with the threshold; the loop by induction; refutations by computation |
| C123 | Evaluate, Criterion and Static composed; spec in StationaryRunSpec and judged_run of CriterionSpec | For any function that is the criterion of Criterion.v where that is defined, the run of Evaluate.v gives the trajectory described by judged_run; regions with integer coordinates survive their texts exactly (RegionSpec.coord_close). Flat objects refuted. |
| C124 | RegionGeom (compute_overlap with boxes, rasterisation and counting); spec in MetricSpec | Symmetry: MIN, MAX, sums and products in float commute up to the sign of zero, which no later step distinguishes, and clipping with the bounds removes NaN; the counters of the two masks are exchanged. Range: conversion of int to float is monotone, so each quotient is at most 1. Self: the box of a region with itself gives the ratio 1 exactly because sizes that fit an int keep the area far from overflow, and equal masks count only common pixels; the 0 result is traced back to a box without extent |
| C125 | Interactive: one pass of the loops of interactive.cpp and camshift.cpp over CppSession and OpenCv; the user, the files and OpenCV's windows are given; spec of the marked rectangles in InteractiveSpec | induction over the turns with C110's rounds, integer rectangles arriving unchanged; for the real configuration: every image the wait accepts is a URL, for which there is no picture; camshift's second reply by computation |
| C126 | PyStatic: one pass of the loop of python_static.py with `__exit__`, over PySession; CPython's float of a text (whether it is a number) and repr; spec of the reported objects in PyStaticSpec, with lines the tracker prints as in C116 | each round is a round of C101 with the remembered object as the reply, lifted to a client that hears the tracker's lines by the simulation of C116; the guard on times is a grammar, the refutation holds for every text with a character no number has |
| C127 | MatlabStatic: matlab_static.m over MatlabServer; spec of requests and reports in MatlabStaticSpec | each pass plays a round of C112 whose state is the polygon as it arrived, up to an array with the same meaning; induction over requests; both sides are ready afterwards, so that quitting closes the connection (C111) |
| C128 | read_message (Message) and trax_client_wait (Handle) at every crash point of the sender | CutSpec says what is left of a message: the parts (arguments, then properties) that are complete in the bytes seen. Induction over the parts with the states of the reader inside a part, the header by computation over all its prefixes; the client by induction over the messages of the answer, the single-object server by comparing the two runs. Violated: cut messages are accepted (cut_message_refuted, cut_answer_refuted), a server for several objects never returns (cut_request_refuted) |
| C129 | BadTracker: support/tests/bad/badtracker.cpp over the handles of Handle | BadTrackerSpec says after which request the tracker is due (last initialization, its break_time and break_type). Each request by the delivery of a round (SessionProofs), the session by induction over the remaining requests with the countdown as the invariant; the client at the end of the stream by HistoryProofs. Violated for break_time values that overflow or are empty (bad_tracker_*_refuted) |
| C130 | No new model: Handle (client_setup, client_wait, server_wait_sot, server_wait_mot), Message, Region, Image, Formats | HostileSpec lists the messages that do harm (region texts outside C27's harmless ones, masks without pixels, images outside C55's guard, introductions without formats). Every read is total and yields arguments without NUL (invariant of the reader); every region text is on the list, rejected or cloneable; induction over the expected objects (client) and the fuel (several objects). A read at the end changes nothing and any other read uses up input, so that a wait that does not return is stuck at the end for every fuel. Partial; violations proved for whole classes (states, introductions) and concrete masks and images. |
| C131 | TutorialClient: the loop of the tutorial client over the TrackerProcess model (Tracker) | TutorialClientSpec says which picture is shown when, and what a tracker that works, quits or is late does. Induction over the ground truth with the invariant of TrackerProofs. The end of the session is refuted: the branch for a requested termination is dead, the next frame throws and nobody catches it. |
| C132 | Ncc, NccFloat: readsequence, readrectangle, NCCTracker::init and update (in halves and in floats), the tracking loop | NccSpec describes files, numbers and rectangles in pictures. Lines by induction; the endless read by a stream that has met its end; tracking by the invariant that the position is the middle of the last answer. The float model is related to the one in halves by a simulation (every float of a moderate state is exactly its number of halves). Refuted: files without a last line end, short region files, objects at or over the border, coordinates beyond 2^24. |
| C133 | Debug: the variables and functions of src/debug.c, DEBUGMSG, client_setup with its messages | DebugSpec says from the history of calls whether messages are on and where they go. Induction over the calls and over the file name. Refuted: messages that the build or TRAX_DEBUG turns on have no stream, so a failing client_setup prints to NULL. |
| C134 | Timer: timer_init, timer_clock, timer_elapsed, save_timings and the text of a double on a stream | TimerSpec gives the nanoseconds of a reading and the value of a decimal text with or without exponent. The clock by arithmetic, the quotient by the error bound of rounding, the text by showing that six digits of the rounded quotient are the microseconds exactly. Refuted: an uninitialized timer, microseconds above a second. |
| C135 | NccMatlab: ncc_initialize and ncc_update of the Matlab tutorial, the tracking loop | NccMatlabSpec gives rounded boxes, extremes of polygons and the part around an object. Rounding by division bounds, polygons by induction, tracking by the invariant that the state is that of the last answer. Refuted: objects at the border, as wide as the picture, outside it, or at the end of the searched part. |
| C136 | FileLog: file_logger and the logger setup over a buffered file | FileLogSpec: exchanges, their bytes (MessageSpec.wire) and their log calls. Invariant: disk and buffer together are the text so far and the disk only grows; every exchange ends with a flush. Crash points are prefixes of the calls. Failing streams: induction over the pieces of Message.write_message for every schedule of write results. Refuted: a full disk is not reported, a momentary error leaves a gap. |

## The models, and what they leave out

* **Buffers and messages** (Buffer, Message, Props, StrMap, Base64). Buffers carry explicit allocations, so overruns are
  UB. A stream is a list of chunks (the results of `read`), an output is a schedule of `write` results. Sizes above 2^31 are
  outside. Of the stream's own socket/file code only what its reads and writes return is part of these models; Sockets models how
  streams are made.
* **Numbers** (Num, FloatOps). Values are `Coq.Floats.SpecFloat` values (no axioms). Conversions (`%d`, `%.4f`, `%f`,
  `strtod`, double/float/int) are written in this project from the C standard, correctly rounded as in glibc, C locale, round
  to nearest even. The sign of a NaN is not represented. float to int conversions out of range are UB.
* **Regions** (Region, RegionGeom). Text form, bounds, conversion, mask windows, rasterisation, overlap, point queries. The
  two coordinate arrays of a polygon are one list of points. Allocation failures are not modelled; freeing
  only in RegionApi, where the arrays of a region are separate cells of a store.
* **Images** (Image). `slack` is the number of bytes the allocator gives beyond the request; the code needs one (C21).
* **Connections** (Formats, Handle, history files). Client and server functions of `trax.c` from the hello message to
  termination, versions 1 to 4. The text of an error is not represented, only that it is set (`set_error` passes a `va_list` to
  a variadic function). Assertions are compiled in (`Abort`).
* **Lists** (Lists). Lists and images live in a store, so that arguments may alias.
* **C++ wrappers** (Wrap). A heap of counters and resources; every use of a freed cell is UB. Virtual calls and templates are
  resolved by hand. The vectors inside the list classes are not modelled.
* **Client support** (Support, Mutex, Cli, ImageSize). Logger, command splitting, deadlines, recursive mutex (each shared
  access is a step; sequentially consistent memory), evaluation loop with an oracle for tracker, overlap criterion and clock.
* **Child processes** (Process). The POSIX branches of support/client/process.cpp over a small model of the system: descriptor
  tables, pipes, one child, signals. The number of a child that was waited for counts as a stranger's. `fork`/`exec` themselves and
  the contents of pipes are not modelled.
* **Tracker processes** (Tracker). `TrackerProcess::State` of support/client/client.cpp over the model of child processes: starting,
  stopping, readiness, requests, the watchdog as a sequence of turns between and during calls. Messages are reduced to their kinds; the
  tracker's answers, its death and the answers of the system are inputs.
* **Threads** (Threads). User's thread, watchdog and logger of a tracker object as programs over mutexes, pointers, flags and the
  timeout; every shared access is a step. Functions of Process and Client are single steps, the tracker's answers are inputs.
* **OpenCV conversions** (OpenCv). The functions of support/opencv/opencv.cpp except drawing and decoding of image files. Of OpenCV
  itself: matrices as headers over memory, channel swapping, exceptions for wrong types and sizes.
* **Connections** (Sockets). Ports and listening sockets of tracker objects, the environment passed to trackers, the choice made in
  trax_server_setup_v, the connect loop, select and accept with times in milliseconds. The system's answers are inputs.
* **Matlab functions** (Matlab). support/matlab/helpers.cpp and the reading of arguments in traxserver.cpp. Of Matlab itself: arrays
  with their dimensions and elements in column-major order, texts, cells, structures; `mexErrMsgTxt` ends the call (`mex_error`).
  The calls of the protocol are below (Matlab server), as is traxclient.cpp (Matlab client).
* **C++ lists** (WrapLists). Constructors, assignments, get, set, wrap of ObjectList and ImageList over the reference
  counting of Wrap: every list variable has a vector of elements and a pointer to a C structure. Elements are immutable numbers
  that live while a variable or vector refers to them (C42); the properties of objects in the lists are left out.
* **Python texts** (PyText). The class Properties and the loggers of support/python/trax/__init__.py. Python strings are lists of
  code points; an exception is a value of its own (`raise`), apart from UB and Abort of the C functions that are called.
* **Python images and masks** (PyArrays). image.py and the class Mask of region.py. Of NumPy: arrays as views of memory (start, shape,
  strides), contiguous copies, padding with zeros. ctypes conversions of integers are modulo 2^32.
* **Python sessions** (PySession). server.py, client.py and the list functions of __init__.py over the handles of Handle. Wrappers are
  the regions and images they refer to; KeyboardInterrupt, elapsed times and the lifetimes of wrappers are left out here.
* **Memory of sessions** (Blocks). Allocation, use and freeing in the session functions of src/trax.c, without contents: messages are
  their types and what their arguments decode to, in any combination. A list of strings, a set of properties, a region and a stream
  are one block each with what belongs to them. Programs are sequences of calls that release what they get; a server waits only while
  alive.
* **Python lifetimes** (PyLife). The wrapper objects of support/python/trax over Blocks: which structure each owns, borrows or copies, and
  what a finalizer frees. A program makes, sends, receives, reads and loses objects; an object can be collected at any step. The objects of
  Python itself and reference cycles are left out; a logger is one block that the C library calls.
* **Programs** (Programs). The command lines of traxclient, traxtest and traxplayer with the repository's own getopt.c (GNU getopt, used
  on other systems, treats command lines of the documented form alike), the run of traxtest against a tracker given by its answers, and
  the selection loop of traxplayer. Drawing and video decoding are left out.
* **Error texts** (Errors). Which text set_error gets for which call and state, over the sessions of Handle. set_error passes its va_list
  as an argument of a variadic function; reading that as an int is undefined.
* **Matlab client** (MatlabClient). Arguments, status structure, command of the callback and the session loop of traxclient.cpp. The callback
  is an arbitrary function of status and data; the tracker process is given turn by turn by what its calls give. Log output, the check that
  the second argument is a function handle, and what is not freed after an error are left out.
* **C++ sessions** (CppSession). Client::initialize/frame/wait, ServerMOT::wait/reply and ServerSOT::wait/reply with a region, over the handles of
  Handle; images, regions and properties are values and the caller's variables are fresh. The overloads with object lists only pass their arguments on.
* **Matlab server** (MatlabServer). mexFunction of traxserver.cpp with its static handle, over the C++ sessions and the argument
  functions of Matlab.v. mexErrMsgTxt ends a call (the state it leaves is kept); destructors run by it are not modelled. Connecting
  is a parameter of setup (streams, or failure). mexAtExit and debug output are left out. The order of custom properties is open.
* **C++ values** (CppValues). The classes Properties and Metadata of src/traxpp.cpp as values with one owner (sharing is in Wrap): all setters and
  getters, maps, vectors and printing; Handle::metadata. A std::map is a list of pairs sorted by unsigned bytes.
* **Stationary tracker** (Static). The main loop of support/tests/static/native_static.c for several objects; its own texts on the output streams
  and the time it sleeps are left out.
* **Python regions** (PyRegions). Special, Rectangle and Polygon of support/python/trax/region.py. Arguments are ints, floats or anything else; the
  conversions of ctypes are modelled. __str__ is not modelled.
* **Memory of dictionaries** (DictMem). The struct, the bucket array, the pair arrays, keys and values are separate blocks; realloc always
  moves; each allocation succeeds or returns NULL as an arbitrary list of booleans says. Sizes are unbounded (no overflow of `unsigned int`).
* **Evaluation of the stationary tracker** (Evaluate). The client's loop of Cli with the answers of Static in place of an oracle; each launch is a
  fresh connection. No watchdog, no time; the failure criterion is any function of frame and region.
* **Regions with their memory** (RegionHeap). Conversion, bounds, overlap, point queries, encoding and decoding over containers and arrays that
  are allocated and freed; the arithmetic is that of Region and RegionGeom applied to the loaded values. Scratch buffers that never
  leave a function (rows, strings, the rasteriser's nodes) are not blocks. Allocations succeed.
* **The failure criterion** (Criterion). The option -f, the environment switches, the bounds from the size of the image, Region::overlap and the comparison,
  inside the evaluation loop of Cli. Images are given by their headers (ImageSize); times are not modelled.

**The OpenCV examples** (Interactive): `main` and `on_mouse` of interactive.cpp and `main` of camshift.cpp, one pass of their loops each. Not
modelled: windows, drawings (only the sums computed for them), histograms and CamShift itself (its windows are arguments), the second message
after a key (the handle being closed).

**The Python stationary tracker** (PyStatic): the loop of python_static.py and `Server.__exit__`. Not modelled: sleeping, signals, the order in
which Python flushes the text of `print` (any complete lines are covered), and the texts of exceptions other than `float`'s.

**The Matlab stationary tracker** (MatlabStatic): the whole script, with Matlab's isempty. Not modelled: the time to wait (str2double never fails, pause only
delays) and the clean-up that ends Matlab.

**The failing tracker** (BadTracker): the whole program; the three signals end the process at once (their default action), so the cases of the switch never
fall through. Its texts on the error stream are left out.

**Hostile peers (HostileSpec, HostileProofs).** Nothing new is modelled: C130 puts the totality of the reader, the region parser's safe texts (C27) and the image decoder's guard (C55) together over arbitrary input streams. `incoming` ranges over all messages that can be read from the stream of the handle. Waiting for ever is: no amount of fuel suffices.

**Tutorial client (TutorialClient, C131).** docs/tutorials/client/client.cpp:63-101 frame by frame over `Tracker`: the name of the picture (snprintf into 32 bytes), initialize or frame, wait, ready. What the tracker does at each frame (launch, answers, turns of the watchdog) is a parameter. Left out: load_trajectory and the command text (the same code as in the command line client), the destructor (C75 to C77), what images and regions look like on the wire (C01 ff.).

**Tutorial tracker (Ncc, C132).** docs/tutorials/tracker/ncc.cpp without its pixels: std::getline with the sentry that leaves the text alone once the end of the file was met, atoi, the rectangles of init and update. The best match is a parameter, within the searched part. Ncc counts floats in halves; NccFloat computes them with IEEE rounding, and ncc_float_exact_partial proves that both agree for coordinates up to 2^20. Left out: writerectangles, the main function in comments, what OpenCV does with an empty template.

**Debug messages (Debug, C133).** src/debug.c:11-87 except tic, toc and flushing, DEBUGMSG of src/debug.h:16 and the two messages of client_setup (src/trax.c:581 and 586), for the three builds. Printing to a NULL stream is undefined behaviour. Names are C strings, read byte by byte.

**Timer (Timer, C134).** support/client/timer.cpp on Linux: CLOCK_MONOTONIC_RAW is a reading of seconds and nanoseconds, timer_state is 64-bit unsigned, the quotient is IEEE double. The text of a double is that of printf's %g: six significant digits of the exact value, ties to even, exponent below -4 and from 6 on. Left out: Windows and macOS, a timings file that cannot be opened.

**Matlab tutorial tracker (NccMatlab, C135).** docs/tutorials/matlab/ncc_tracker.m without its pixels: the best place is a parameter that gets the corner and the size of the response. Region numbers are counted in units of 2^-20 and positions in halves, so sums are exact as they are in doubles of moderate size. Left out: what normxcorr2 refuses, reading and writing the files.

**Log file (FileLog, C136).** src/trax.c:81-108. The C library may pass any part of its buffer to the disk at any fwrite; the disk has a number of bytes left and what it does not take stays in the buffer. The log calls are those of PyText, in which the stream takes everything.

## Trusted base

* Coq 8.16.1 kernel (and `vm_compute` for the witnesses).
* `Print Assumptions` follows every theorem in the `Properties_*.v` files and prints "Closed under the global context" for each
  of them: no axioms, neither own nor of the standard library.
* The reading of C and C++ code into Gallina (no code was run), including the models of the C library named above.

## Not modelled

Windows branches, the parts of the Python bindings not named above, the system calls behind process creation (a small
model of descriptors, pipes, signals and waiting stands for them), memory exhaustion
(`malloc` returning NULL, except in dictionaries: C118), weak memory. In the model Tracker (C73 to C77) the turns of the watchdog are atomic; interleavings
inside them are the subject of Threads (C78 to C81).
