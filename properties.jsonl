{"id": "C01", "title": "A protocol message survives the wire", "statement": "If one side sends a message (any protocol message type, any list of positional arguments, any property dictionary) and the other side reads from the same byte stream, the reader returns the same message type, exactly the same positional arguments in the same order, exactly the same key/value pairs, and leaves every byte that follows the message unread. The guarantee is claimed for 7-bit text without NUL, for property keys the protocol allows (at most 64 characters out of letters, digits, '.' and '_'), and for arguments that are not themselves of the form key=value with such a key.", "quantifier": "every message type, every argument list, every property dictionary within the stated character guard, every suffix of the stream", "why_tests_cant": "arguments and values are unbounded strings with quotes, backslashes, newlines, '=' and spaces in every combination; a test fixes a handful of them", "anchors": ["src/message.c:write_message", "src/message.c:write_buffer_escaped", "src/message.c:read_message", "src/message.c:__is_valid_key"]}
{"id": "C02", "title": "A sequence of messages survives the wire", "statement": "When one side sends any sequence of messages over one stream, the other side reads exactly that sequence, message by message, in order, without merging, splitting, dropping or inventing messages, whatever the reader's earlier history on that stream.", "quantifier": "every finite sequence of messages within the guard of C01", "why_tests_cant": "framing errors appear only for particular adjacent messages; sequences are unbounded", "anchors": ["src/message.c:write_message", "src/message.c:read_message"]}
{"id": "C03", "title": "Message decoding does not depend on how the operating system splits the stream", "statement": "Reading messages from a stream gives the same messages whatever sizes the individual read()/recv() calls return: the result depends only on the concatenation of the bytes.", "quantifier": "every byte stream and every partition of it into non-empty read results of at most the internal buffer size", "why_tests_cant": "the kernel chooses the partition; a test exercises one or two of exponentially many", "anchors": ["src/message.c:read_character", "src/message.c:read_message"]}
{"id": "C04", "title": "Short writes never corrupt a message", "statement": "When the operating system accepts only part of each buffer per write()/send() call, the bytes that reach the stream are still exactly the encoded message, in order, each byte once. If a write fails for good, what has been delivered by that buffer write is a prefix of the intended bytes.", "quantifier": "every message and every schedule of partial writes (each call accepts at least one byte or fails)", "why_tests_cant": "partial writes depend on kernel buffers and scheduling", "anchors": ["src/message.c:write_buffer", "src/message.c:write_buffer_escaped", "src/message.c:write_message"]}
{"id": "C05", "title": "A tracker may print freely between messages", "statement": "Lines that do not start with the protocol prefix, interleaved between protocol messages, are skipped: the messages read are the same as without them.", "quantifier": "every set of non-protocol lines of 7-bit text (including lines sharing a proper prefix with the protocol prefix) before every message", "why_tests_cant": "the prefix matcher is a character automaton; wrong restarts show only for special partial prefixes", "anchors": ["src/message.c:read_message"]}
{"id": "C06", "title": "Every message occupies exactly one line", "statement": "The bytes sent for a message start with the protocol prefix and contain exactly one newline, the last byte, whatever newlines, quotes or backslashes the arguments and values contain.", "quantifier": "every message type, argument list and property dictionary whose keys contain no newline", "why_tests_cant": "escaping must hold for every string", "anchors": ["src/message.c:write_buffer_escaped", "src/message.c:write_message"]}
{"id": "C07", "title": "The message reader is total and memory safe", "statement": "For every byte stream whatsoever (any bytes, malformed or truncated), reading a message terminates once the stream ends or a message completes, reads each byte at most once and in order, and never stores outside its internal buffers.", "quantifier": "every finite byte stream and every reader state reachable by earlier reads", "why_tests_cant": "the input is controlled by the peer process", "anchors": ["src/message.c:read_message", "src/buffer.h:buffer_push", "src/buffer.h:list_append"]}
{"id": "C08", "title": "End of stream is reported, not answered with an invented message", "statement": "When the peer closes the stream between messages, the next read reports an error; it never returns a message nobody sent.", "quantifier": "every history of messages read before the stream ended", "why_tests_cant": "needs the state left by every possible earlier message", "anchors": ["src/message.c:read_message", "src/message.c:initialize_cache"]}
{"id": "C09", "title": "Non-ASCII text is transmitted", "statement": "Arguments and property values containing bytes above 127 (UTF-8 paths, tracker descriptions) are read back unchanged, as C01 promises for 7-bit text.", "quantifier": "every message with arbitrary non-NUL bytes", "why_tests_cant": "needs every byte value in every parser state", "anchors": ["src/message.c:read_character", "src/message.c:read_message"]}
{"id": "C10", "title": "Messages are isolated from each other", "statement": "What a read returns depends only on the message that was accepted: arguments and properties of a rejected line never show up in the next message, and rejecting a line never discards the following line.", "quantifier": "every malformed line followed by every well-formed message", "why_tests_cant": "malformed inputs are unbounded", "anchors": ["src/message.c:read_message"]}
{"id": "C11", "title": "The protocol log is a faithful transcript", "statement": "With logging enabled, the bytes passed to the log callback for a sent message are exactly the bytes written, and for a received message exactly the bytes consumed from the stream.", "quantifier": "every message, every byte stream that contains a complete message", "why_tests_cant": "all inputs and all split points", "anchors": ["src/message.c:LOG_CHAR", "src/message.c:write_buffer", "src/message.c:read_message"]}
{"id": "C12", "title": "A property dictionary behaves like a finite map", "statement": "After any sequence of set and clear operations, get returns the value most recently set for the key since the last clear and nothing for other keys; the count is the number of distinct keys; enumeration visits each stored pair exactly once.", "quantifier": "every sequence of operations over every set of keys and values (including colliding hashes)", "why_tests_cant": "collisions and operation orders are unbounded", "anchors": ["src/strmap.c:sm_put", "src/strmap.c:sm_get", "src/strmap.c:sm_get_count", "src/strmap.c:sm_enum", "src/trax.c:trax_properties_set", "src/trax.c:trax_properties_get"]}
{"id": "C13", "title": "Property storage never overruns its allocations", "statement": "Replacing a value by a longer or shorter one any number of times never writes beyond the memory allocated for that value, and reading a value never overruns the caller's buffer.", "quantifier": "every sequence of set operations with values of every length", "why_tests_cant": "depends on the history of lengths per key", "anchors": ["src/strmap.c:sm_put", "src/strmap.c:sm_get", "src/trax.c:trax_properties_get"]}
{"id": "C14", "title": "Integer properties round-trip", "statement": "Setting an integer property and reading it back as an integer yields the same integer, for every 32-bit integer; reading a property that is absent yields the given default.", "quantifier": "every int value, every key, every dictionary and every default", "why_tests_cant": "2^32 values and all dictionary states", "anchors": ["src/trax.c:trax_properties_set_int", "src/trax.c:trax_properties_get_int"]}
{"id": "C15", "title": "An integer property that cannot be converted yields the default", "statement": "Reading an integer property whose stored text is not an integer returns the caller's default and never an arbitrary value.", "quantifier": "every stored text and every default", "why_tests_cant": "every possible text including the empty one", "anchors": ["src/trax.c:trax_properties_get_int", "src/trax.c:trax_properties_get_float"]}
{"id": "C16", "title": "Merging dictionaries respects the overwrite flag", "statement": "Appending one dictionary to another with overwriting enabled makes every source pair present in the destination and keeps the other destination pairs; with overwriting disabled it only adds keys the destination did not have.", "quantifier": "every pair of dictionaries and both flag values", "why_tests_cant": "all dictionary contents", "anchors": ["src/trax.c:trax_properties_append", "src/trax.c:copy_properties", "src/trax.c:copy_property_external"]}
{"id": "C17", "title": "Base64 round-trips and follows the standard", "statement": "Encoding any byte string and decoding the result yields the same bytes; the encoded text is the RFC 4648 encoding, and its length is the one announced by the length function, so that the encoder never writes past the announced size.", "quantifier": "every byte string of every length", "why_tests_cant": "unbounded inputs", "anchors": ["src/base64.c:base64encode", "src/base64.c:base64decode", "src/base64.c:base64encodelen", "src/base64.c:base64decodelen"]}
{"id": "C18", "title": "Base64 decoding stays within the announced size", "statement": "Decoding any text received from the peer never writes more bytes than the announced decoded size (which includes the terminator).", "quantifier": "every NUL-terminated text", "why_tests_cant": "the text is controlled by the peer", "anchors": ["src/base64.c:base64decodelen", "src/base64.c:base64decode"]}
{"id": "C19", "title": "Path images round-trip", "statement": "An image given by a file path is decoded on the other side as a path image with the same path.", "quantifier": "every path string", "why_tests_cant": "all paths, including ones containing ':' or '/'", "anchors": ["src/trax.c:image_encode", "src/trax.c:image_decode", "src/trax.c:parse_uri"]}
{"id": "C20", "title": "URL images round-trip", "statement": "An image given by a URL is decoded on the other side as a URL image with the same URL.", "quantifier": "every URL that has a scheme other than file, data or image", "why_tests_cant": "all URLs", "anchors": ["src/trax.c:image_encode", "src/trax.c:image_decode"]}
{"id": "C21", "title": "In-memory images round-trip", "statement": "An image given by raw pixels is decoded on the other side with the same width, height, format and pixel bytes, for each supported pixel format, and decoding stays within the memory allocated for the pixels.", "quantifier": "every size, every supported pixel format, every pixel content", "why_tests_cant": "unbounded sizes and contents", "anchors": ["src/trax.c:image_encode", "src/trax.c:image_decode", "src/trax.c:trax_image_create_memory"]}
{"id": "C22", "title": "Encoded image buffers round-trip", "statement": "An image given by an encoded (JPEG or PNG) file buffer is decoded on the other side with the same bytes, the same length and the same format.", "quantifier": "every buffer content and length", "why_tests_cant": "unbounded contents", "anchors": ["src/trax.c:image_encode", "src/trax.c:image_decode", "src/trax.c:trax_image_get_buffer"]}
{"id": "C23", "title": "Image row access addresses disjoint rows", "statement": "For an in-memory image the row accessors return, for each row index, the address of that row's pixels; different rows do not overlap and the last row ends at the end of the pixel memory.", "quantifier": "every width, height, format and row", "why_tests_cant": "all sizes", "anchors": ["src/trax.c:trax_image_write_memory_row", "src/trax.c:trax_image_get_memory_row"]}
{"id": "C24", "title": "Special regions round-trip", "statement": "Encoding a special region and decoding the text yields a special region with the same code.", "quantifier": "every int code", "why_tests_cant": "2^32 codes", "anchors": ["src/region.c:region_string", "src/region.c:region_parse"]}
{"id": "C25", "title": "Rectangle and polygon text is stable", "statement": "Encoding a rectangle or polygon with finite coordinates, decoding the text and encoding again yields the same text; the decoded coordinates differ from the originals by less than 0.0001, and multiples of 1/16 (integers in particular) and all coordinates of magnitude 1024 and above are reproduced exactly.", "quantifier": "every finite single-precision coordinate, every number of polygon points (at least three)", "why_tests_cant": "2^32 coordinate values and unbounded polygons", "anchors": ["src/region.c:region_string", "src/region.c:region_parse", "src/region.c:_parse_sequence"]}
{"id": "C26", "title": "Mask regions round-trip", "statement": "Encoding a mask and decoding the text yields a mask with the same offset, size and pixels.", "quantifier": "every mask size, offset and content", "why_tests_cant": "2^(w*h) masks of every size", "anchors": ["src/region.c:region_string", "src/region.c:region_parse"]}
{"id": "C27", "title": "Decoding region text never crashes", "statement": "Decoding any text as a region either yields a region or reports failure; it never aborts the process, reads or writes out of bounds, or claims success without a region.", "quantifier": "every text", "why_tests_cant": "the text is controlled by the peer", "anchors": ["src/region.c:region_parse", "src/region.c:_parse_sequence", "src/region.c:__parse_uri_prefix"]}
{"id": "C28", "title": "A mask can be cropped or pasted at any offset", "statement": "Requesting the pixels of a mask region over any window yields, for each window pixel, the mask's value at that image position, and zero outside the mask, without reading or writing out of bounds.", "quantifier": "every mask and every window position and size, overlapping or not", "why_tests_cant": "all relative positions", "anchors": ["src/region.c:region_get_mask_offset", "src/region.c:region_get_mask"]}
{"id": "C29", "title": "The bounding box of a mask is tight", "statement": "Converting a mask with at least one set pixel to a rectangle yields a rectangle that contains all set pixels and touches set pixels on all four sides.", "quantifier": "every mask", "why_tests_cant": "all mask contents", "anchors": ["src/region.c:region_convert", "src/region.c:region_compute_bounds"]}
{"id": "C30", "title": "Region bounds contain the region", "statement": "The bounds reported for a rectangle or polygon contain all its vertices, and every side of the bounds is attained by a vertex.", "quantifier": "every polygon with any finite coordinates (including all-negative ones) and every rectangle", "why_tests_cant": "all coordinate values", "anchors": ["src/region.c:region_compute_bounds", "src/region.c:compute_bounds", "src/region.c:region_convert"]}
{"id": "C31", "title": "Overlap is the Jaccard index", "statement": "The overlap computed for two mask regions equals the number of pixels set in both divided by the number of pixels set in at least one, restricted to the given bounds; it is symmetric, lies between 0 and 1, and together with the two exclusive fractions sums to 1 whenever at least one pixel is set.", "quantifier": "every pair of masks and bounds", "why_tests_cant": "all mask pairs", "anchors": ["src/region.c:region_compute_overlap", "src/region.c:compute_polygon_overlap"]}
{"id": "C32", "title": "Rasterisation stays inside the mask", "statement": "Rasterising any polygon into a mask of any size never writes outside the mask and returns the number of pixels it set.", "quantifier": "every polygon with coordinates in the integer range and every mask size", "why_tests_cant": "all vertex positions, inside and outside of the window", "anchors": ["src/region.c:rasterize_polygon"]}
{"id": "C33", "title": "Supported-format lists round-trip", "statement": "Announcing any set of supported image formats, region formats or channels and decoding the announcement yields the same set (of announceable members).", "quantifier": "every set of formats and channels", "why_tests_cant": "together with C35 all texts; the encoder uses fixed-size buffers", "anchors": ["src/trax.c:image_formats_encode", "src/trax.c:image_formats_decode", "src/trax.c:region_formats_encode", "src/trax.c:region_formats_decode", "src/trax.c:image_channels_encode", "src/trax.c:image_channels_decode"]}
{"id": "C34", "title": "Unknown formats are not mistaken for supported ones", "statement": "An announcement that contains an unknown format name never makes the client believe that formats outside the announcement are supported.", "quantifier": "every announcement text", "why_tests_cant": "all texts", "anchors": ["src/trax.c:image_formats_decode", "src/trax.c:region_formats_decode", "src/trax.c:client_setup"]}
{"id": "C35", "title": "The handshake conveys the tracker's metadata", "statement": "When a tracker starts up with some metadata and a client connects to it, the client obtains the same protocol version, region formats, image formats, channels, name, description, family and custom properties.", "quantifier": "every metadata record within the character guard of C01", "why_tests_cant": "all metadata", "anchors": ["src/trax.c:server_setup", "src/trax.c:client_setup", "src/trax.c:trax_metadata_create"]}
{"id": "C36", "title": "A tracking session delivers what was sent", "statement": "In a session between the library's client and server, the server receives the image and region the client passed to initialize and the image of every frame, with the caller's properties, and the client receives the region and properties of every reply, in order, for sessions of any length.", "quantifier": "every sequence of frames and replies, every region in the supported formats, every property dictionary within the guard of C01", "why_tests_cant": "unbounded sessions", "anchors": ["src/trax.c:trax_client_initialize", "src/trax.c:trax_client_frame", "src/trax.c:trax_client_wait", "src/trax.c:trax_server_wait", "src/trax.c:trax_server_reply"]}
{"id": "C37", "title": "Termination is final and announced once", "statement": "Terminating a connection sends at most one quit message; terminating again, or calling any other communication function afterwards, sends nothing and reports an error, and the handle never becomes alive again.", "quantifier": "every sequence of API calls after and before termination, on client and server", "why_tests_cant": "all call histories", "anchors": ["src/trax.c:trax_terminate", "src/trax.c:trax_cleanup", "src/trax.c:trax_is_alive", "src/trax.c:trax_client_frame", "src/trax.c:trax_server_reply"]}
{"id": "C38", "title": "Functions used in the wrong role or state have no effect", "statement": "Calling a client function on a server handle or a server function on a client handle, or replying with a number of objects different from the number being tracked, reports an error and sends nothing.", "quantifier": "every handle state and every argument", "why_tests_cant": "all states", "anchors": ["src/trax.c:trax_client_wait", "src/trax.c:trax_server_wait", "src/trax.c:trax_server_reply", "src/trax.c:HANDLE_ALIVE", "src/trax.c:VALIDATE_SERVER_HANDLE"]}
{"id": "C39", "title": "Failed sends leave no partial traffic", "statement": "If a client call that sends data reports an error, no message was sent by it.", "quantifier": "every handle state, image list and object list", "why_tests_cant": "all argument combinations", "anchors": ["src/trax.c:trax_client_initialize", "src/trax.c:trax_client_frame"]}
{"id": "C40", "title": "Client and server agree on the number of tracked objects", "statement": "After any number of initialisations and frames the client's and the server's idea of the number of tracked objects coincide, so that each accepted reply carries exactly one state per object.", "quantifier": "every session history with multi-object initialisation", "why_tests_cant": "unbounded histories", "anchors": ["src/trax.c:trax_client_initialize", "src/trax.c:trax_client_frame", "src/trax.c:trax_server_wait_mot", "src/trax.c:trax_server_reply_mot", "src/trax.c:trax_client_wait"]}
{"id": "C41", "title": "Object and image lists behave like arrays", "statement": "Reading back an entry of an object list or image list returns what was last stored at that index or channel, other entries are unaffected, appending a list appends its entries in order, and counting the channels in a bit set gives the number of set bits.", "quantifier": "every sequence of operations, every index, every bit set", "why_tests_cant": "all operation sequences", "anchors": ["src/trax.c:trax_object_list_set", "src/trax.c:trax_object_list_append", "src/trax.c:trax_image_list_set", "src/trax.c:trax_image_list_count"]}
{"id": "C42", "title": "C++ objects free the underlying resource exactly once", "statement": "For every program that copies, assigns and destroys C++ handles, images, regions and dictionaries, the underlying resource is alive while some object refers to it and is released exactly once, when the last one goes away.", "quantifier": "every sequence of constructions, copies, assignments (including self-assignment) and destructions", "why_tests_cant": "all alias patterns", "anchors": ["src/traxpp.cpp:Wrapper::acquire", "src/traxpp.cpp:Wrapper::release", "src/traxpp.cpp:Wrapper::swap"]}
{"id": "C43", "title": "C++ dictionaries and regions have value semantics", "statement": "Modifying a C++ Properties or Region object never changes the value observed through another object it was copied from or to.", "quantifier": "every sequence of copies and modifications", "why_tests_cant": "all alias patterns", "anchors": ["src/traxpp.cpp:Properties::set", "src/traxpp.cpp:Properties::clear", "src/traxpp.cpp:Region::set", "src/traxpp.cpp:Region::write_mask_row"]}
{"id": "C44", "title": "The client's output logger loses nothing", "statement": "The lines the client library prints for a tracker's output contain every byte the tracker printed, in order, except that over-long lines are cut to the documented limit, however the output is split into chunks.", "quantifier": "every byte stream and every chunking", "why_tests_cant": "all chunkings", "anchors": ["support/client/client.cpp:line_buffer_push", "support/client/client.cpp:line_buffer_flush"]}
{"id": "C45", "title": "Tracker command lines are split as documented", "statement": "The command line handed to the operating system is the list of words obtained by splitting at spaces with double quotes grouping; the command the command-line client builds from its own arguments is split back into exactly those arguments.", "quantifier": "every list of arguments", "why_tests_cant": "unbounded argument lists", "anchors": ["support/client/process.cpp:__next_token", "support/client/process.cpp:parse_command", "support/client/cli.cpp:main"]}
{"id": "C46", "title": "The recursive mutex provides mutual exclusion", "statement": "At most one thread is inside sections protected by the same recursive mutex, a thread may enter repeatedly, and the mutex becomes free exactly when the owner has left as often as it entered.", "quantifier": "every number of threads and every interleaving", "why_tests_cant": "schedules", "anchors": ["support/client/threads.cpp:Mutex::acquire", "support/client/threads.cpp:Mutex::release", "support/client/threads.cpp:Lock"]}
{"id": "C47", "title": "Timed waits use a valid deadline", "statement": "A timed wait waits until the current time plus the requested number of milliseconds, expressed as a valid time value, for every non-negative timeout.", "quantifier": "every current time and every timeout", "why_tests_cant": "carry cases depend on the current microsecond", "anchors": ["support/client/threads.cpp:simple_threads_cond_wait"]}
{"id": "C48", "title": "The evaluation client accounts for every frame", "statement": "For every tracker behaviour (success, failure, quitting at any frame) and every reinitialisation setting, the trajectory written by the command-line client contains exactly one entry per frame of the sequence, and the run terminates.", "quantifier": "every sequence length, every pattern of missing initialisation, every pattern of overlaps, every reinitialisation offset", "why_tests_cant": "all failure patterns", "anchors": ["support/client/cli.cpp:main"]}
{"id": "C49", "title": "Every message in the documented syntax is understood", "statement": "A line written by any other implementation according to the protocol document (prefix, message name in any letter case, arguments separated by one or more spaces, each quoted or not, positional or named in any order, characters escaped or not, with or without a space before the end of line) is received as the message it denotes.", "quantifier": "every line of the documented grammar and every way it is split into reads", "why_tests_cant": "the library's own writer only ever produces one of the many legal spellings, so round-trip tests never exercise the others", "anchors": ["src/message.c:read_message", "docs/protocol.rst"]}
{"id": "C50", "title": "Float properties survive storage", "statement": "Setting a finite single-precision property and reading it back as a float yields a value within one millionth of the original, exactly the original from magnitude 16 upward, and storing the value read stores the same text; a non-empty stored text that is not a number yields the given default.", "quantifier": "every finite float, every key, every dictionary and default, every stored text", "why_tests_cant": "2^32 values and all texts; printf and strtod rounding must be composed exactly", "anchors": ["src/trax.c:trax_properties_set_float", "src/trax.c:trax_properties_get_float"]}
{"id": "C51", "title": "Pixels of a rectangle", "statement": "Writing a rectangle region with integer position and size into any mask window sets exactly the window pixels that lie inside the rectangle (x <= column < x + width, y <= row < y + height) and clears the others.", "quantifier": "all rectangles with integer position and size and all windows", "why_tests_cant": "The rasteriser mixes float rounding, node sorting and pairing; off-by-one errors appear only at particular positions, sizes and window offsets.", "anchors": ["src/region.c:region_get_mask_offset", "src/region.c:rasterize_polygon"]}
{"id": "C52", "title": "Conversion to a mask keeps the pixels", "statement": "Converting a rectangle or polygon region to a mask gives a mask that covers the same pixels as the original, at the same place; an integer rectangle converted to a mask and back is the same rectangle.", "quantifier": "all rectangle and polygon regions", "why_tests_cant": "Only an exhaustive comparison over positions shows that placement and size are right for every region.", "anchors": ["src/region.c:region_convert", "src/trax.c:trax_region_convert"]}
{"id": "C53", "title": "Point queries on masks", "statement": "Asking whether a mask region contains a point answers yes exactly when the pixel the point lies in is set, for any finite point inside or outside the mask, and never reads outside the pixel data.", "quantifier": "all masks and all finite points", "why_tests_cant": "The unsafe cases are points between pixel borders at negative positions; tests sample few of them.", "anchors": ["src/region.c:region_contains_point", "src/region.c:point_in_mask", "src/trax.c:trax_region_contains"]}
{"id": "C54", "title": "Image texts follow the documented syntax", "statement": "The text under which an image travels is the one documented for its kind: file://path, image:width;height;format;base64, data:mediatype;base64;base64 and the plain URL; documented texts are understood.", "quantifier": "every path, URL, size, pixel format, pixel content and image file", "why_tests_cant": "The set of images and texts is unbounded; tests only ever compare a library with itself.", "anchors": ["docs/protocol.rst", "src/trax.c:image_encode", "src/trax.c:image_decode"]}
{"id": "C55", "title": "Decoding a received image text never crashes", "statement": "Whatever text arrives as an image, decoding it ends with an image or an error result, reads only the text and writes only the memory it has allocated, and never aborts the program.", "quantifier": "every text", "why_tests_cant": "Malformed texts are infinitely many and out-of-bounds accesses by one byte rarely show in a test.", "anchors": ["src/trax.c:image_decode", "src/trax.c:strntok", "src/base64.c:base64decodelen"]}
{"id": "C56", "title": "Omitted hello properties have their documented defaults", "statement": "A client connecting to a server whose hello message omits the image or region formats behaves as if the documented defaults (paths, rectangles) had been announced.", "quantifier": "every hello message of every server, including ones not written with this library", "why_tests_cant": "all subsets of optional properties", "anchors": ["src/trax.c:client_setup", "src/trax.c:region_formats_decode", "src/trax.c:image_formats_decode", "docs/protocol.rst"]}
{"id": "C57", "title": "Waiting ends when the other side goes away", "statement": "When the other side closes the connection, a call that waits for a message returns and reports an error; it neither waits for ever nor reports data that was never sent.", "quantifier": "every handle state and every point of a session at which the connection breaks", "why_tests_cant": "crash points; non-termination cannot be observed by a test", "anchors": ["src/trax.c:trax_server_wait_mot", "src/trax.c:trax_server_wait_sot", "src/trax.c:trax_client_wait", "src/message.c:read_message"]}
{"id": "C58", "title": "A saved trajectory can be read back", "statement": "Writing a list of regions with save_trajectory and reading the file with load_trajectory gives a list of the same length in the same order, whose entries are what the text forms of the regions stand for; empty entries stay empty. Files with LF or CRLF line ends, and files whose last line has no line end, are read completely.", "quantifier": "every list of regions that can be written; every file made of such lines", "why_tests_cant": "lists, regions and line-end combinations are unbounded", "anchors": ["support/client/client.cpp:load_trajectory", "support/client/client.cpp:save_trajectory", "src/traxpp.cpp:operator>>", "src/traxpp.cpp:operator<<"]}
{"id": "C59", "title": "The command-line client sends the images a tracker asked for", "statement": "For every set of channels and every set of image formats a tracker announces, the client loads for each frame exactly one image per announced channel, from that channel's path, in an announced format.", "quantifier": "every set of channels, every set of image formats, all paths", "why_tests_cant": "tests use color images by path", "anchors": ["support/client/cli.cpp:load_images", "support/client/cli.cpp:load_image", "support/client/cli.cpp:main"]}
{"id": "C60", "title": "One timing per frame", "statement": "The timings file of the command-line client has one entry for every frame of the sequence, so that line n of the timings belongs to line n of the trajectory.", "quantifier": "every sequence, every pattern of missing initialisation and of failures", "why_tests_cant": "all failure patterns", "anchors": ["support/client/cli.cpp:main"]}
{"id": "C61", "title": "The size of an image is found", "statement": "For every PNG, GIF or JPEG image the size the client reads from the image's header is the width and height stored there, whether the image is given by path or as a buffer; for other images an unknown size is reported.", "quantifier": "all sizes, all files of these kinds with any segments before the frame header", "why_tests_cant": "files and headers are unbounded", "anchors": ["support/client/cli.cpp:image_get_size"]}
{"id": "C62", "title": "The image list file is read completely", "statement": "Reading the image list file gives one entry per line, with the paths of the line's channels in order and missing channels empty, whatever line ends the file has.", "quantifier": "every list file", "why_tests_cant": "files are unbounded", "anchors": ["support/client/cli.cpp:read_images"]}
{"id": "C63", "title": "Point queries on rectangles", "statement": "A point query on a rectangle answers yes exactly when the point lies between the rectangle's sides, borders included.", "quantifier": "every rectangle with finite position and size and every finite query point", "why_tests_cant": "positions, sizes and points range over all floating-point values, and rounding of the right and bottom sides depends on them", "anchors": ["src/region.c:region_contains_point", "src/trax.c:trax_region_contains", "include/trax.h"]}
{"id": "C64", "title": "Point queries on polygons", "statement": "A point query on a polygon answers yes for points inside and no for points outside: it follows the even-odd rule on the exact geometry, answers correctly for every point strictly inside or outside a convex polygon, and does not depend on which vertex is listed first or in which direction.", "quantifier": "every polygon and every query point", "why_tests_cant": "polygons have any number of vertices at any floating-point coordinates", "anchors": ["src/region.c:point_in_polygon", "src/region.c:region_contains_point", "src/trax.c:trax_region_contains"]}
{"id": "C65", "title": "Regions behave as independent values", "statement": "For every sequence of region creations, clones, releases, setters and getters on existing regions with positions inside them, every call gives what it would give if regions were independent values: a clone keeps its content when the original is changed or released, a point or pixel read is the one last written, and after the last release no memory is left. A wrong type of region, a mask row or a polygon index out of range stops the program (assertion) instead of touching other memory.", "quantifier": "every sequence of API calls on any number of regions, all sizes and values", "why_tests_cant": "Sharing, leaks and stale reads depend on the history of calls; out-of-range accesses usually do not show in a test.", "anchors": ["src/trax.c:trax_region_clone", "src/trax.c:trax_region_release", "src/trax.c:trax_region_set_polygon_point", "src/trax.c:trax_region_get_polygon_point", "src/trax.c:trax_region_write_mask_row", "src/trax.c:trax_region_get_mask_row", "src/region.c:region_convert", "src/region.c:region_release", "src/region.c:region_create_mask"]}
{"id": "C66", "title": "The mask of a convex polygon is the polygon, up to one pixel", "statement": "Drawing a convex polygon into a mask window with the default rasterisation sets every pixel of the window strictly inside the polygon and every vertex, and sets no pixel that is more than one pixel to the left or right of the polygon.", "quantifier": "all convex polygons with integer vertices, either orientation, any number of vertices, and all windows", "why_tests_cant": "The edge crossings are computed in floating point and truncated; whether a rounding error moves a node by more than a pixel, or a vertex on a row upsets the pairing of the nodes, depends on coordinates, slopes and the alignment of the window, which no sample of polygons covers.", "anchors": ["src/region.c:rasterize_polygon", "src/region.c:region_get_mask_offset"]}
{"id": "C67", "title": "A started tracker is connected to the client's streams", "statement": "When a client starts a tracker process, what the client writes to the input of the process is what the tracker reads, and what the tracker writes to its output and error streams is what the client reads from them; the tracker holds no other end of these pipes. With explicit streams the descriptor numbers passed in TRAX_IN and TRAX_OUT name the tracker's ends.", "quantifier": "all descriptor tables of the client (any descriptors open or closed), all environments, both stream modes", "why_tests_cant": "Which numbers pipe returns depends on what the client has open or closed; a clash with the numbers 0 to 2 that are replaced in the child only shows for particular tables.", "anchors": ["support/client/process.cpp:Process::start", "support/client/process.cpp:Process::get_input", "support/client/process.cpp:Process::get_output", "support/client/process.cpp:Process::get_error"]}
{"id": "C68", "title": "The reported state of a tracker process is the true one", "statement": "Asking whether a started process is alive answers yes with status 0 while it runs; after it ended the answer is no with its exit code, or with the negated number of the signal that ended it, however often and in whatever order it was asked, terminated or killed.", "quantifier": "all histories of questions, signals and endings of the child", "why_tests_cant": "The status can be fetched from the system only once; whether the answer survives later calls depends on the history.", "anchors": ["support/client/process.cpp:Process::is_alive", "support/client/process.cpp:Process::stop", "support/client/process.cpp:Process::kill"]}
{"id": "C69", "title": "Signals reach only the client's own tracker", "statement": "Stopping, killing or destroying a process never sends a signal to a process other than the one it started, even if the system has given the number of the ended process to another one.", "quantifier": "all histories of starts, questions, signals and endings", "why_tests_cant": "Process numbers are reused by the system at times a test cannot choose.", "anchors": ["support/client/process.cpp:Process::stop", "support/client/process.cpp:Process::kill", "support/client/process.cpp:Process::~Process"]}
{"id": "C70", "title": "Destroying a process gives back its descriptors", "statement": "After a process object is destroyed the client has exactly the descriptors open that it had before the object was created.", "quantifier": "all descriptor tables, all histories, failures to make pipes or processes included", "why_tests_cant": "A leaked or wrongly closed descriptor depends on which of the system calls failed and on what the client had open.", "anchors": ["support/client/process.cpp:Process::cleanup", "support/client/process.cpp:Process::~Process", "support/client/process.cpp:Process::Process"]}
{"id": "C71", "title": "A client sees the end of a crashed tracker's output", "statement": "When the tracker process has ended and everything it wrote was read, reading from its output meets the end of the file.", "quantifier": "all crash points and histories", "why_tests_cant": "It depends on which descriptors of the pipe remain open in which process at the time of the crash.", "anchors": ["support/client/process.cpp:Process::start", "support/client/process.cpp:Process::cleanup"]}
{"id": "C72", "title": "A tracker gets the client's environment", "statement": "A process started with a copy of the client's environment sees every variable with the value the client sees, and every variable set for it with the value set.", "quantifier": "all environments, all names and values", "why_tests_cant": "Environments can hold duplicates, values with equals signs and names in any order.", "anchors": ["support/client/process.cpp:Process::copy_environment", "support/client/process.cpp:Process::set_environment", "support/client/process.cpp:Process::start"]}
{"id": "C73", "title": "A timeout stops a silent tracker and only a silent one", "statement": "With a timeout of T seconds a tracker that answers before 10 T turns of the watchdog have passed gets its answer delivered and is left alone; one that does not is stopped, the call reports failure and the tracker is not ready. A timeout of zero or less waits for ever.", "quantifier": "all reachable states, all requests, all waiting times, all timeouts", "why_tests_cant": "The boundary lies in a counter that another thread decrements; a test sees one duration on one machine.", "anchors": ["support/client/client.cpp:State::watchdog_loop", "support/client/client.cpp:State::start_watchdog", "support/client/client.cpp:TrackerProcess::initialize", "support/client/client.cpp:TrackerProcess::frame", "support/client/client.cpp:TrackerProcess::wait", "support/client/client.cpp:State::start_process"]}
{"id": "C74", "title": "Frames go only to an initialised tracker", "statement": "A client object sends a frame, or waits for a state, only to a tracker process that has answered its previous request with success since it was launched; tracking() says so truthfully.", "quantifier": "all histories of calls, launches, answers and crashes", "why_tests_cant": "The flag outlives processes; which histories reset it can only be seen by looking at all of them.", "anchors": ["support/client/client.cpp:TrackerProcess::frame", "support/client/client.cpp:TrackerProcess::wait", "support/client/client.cpp:TrackerProcess::tracking", "support/client/client.cpp:TrackerProcess::reset", "support/client/client.cpp:TrackerProcess::query"]}
{"id": "C75", "title": "Trackers are stopped politely and in order", "statement": "When a running tracker is stopped it is told to quit first, gets half a second to end, then SIGTERM and half a second, then SIGKILL; no signal is sent to one that ends in time.", "quantifier": "all reachable states, all times at which the tracker ends", "why_tests_cant": "The order of signals depends on when a process dies; tests see only the final effect.", "anchors": ["support/client/client.cpp:State::stop_process", "support/client/client.cpp:TrackerProcess::~TrackerProcess", "support/client/client.cpp:TrackerProcess::reset"]}
{"id": "C76", "title": "Histories of a tracker process are memory safe and give back all descriptors", "statement": "Any sequence of calls, watchdog turns and tracker crashes on a client object is free of undefined behaviour, and destroying the object gives back all descriptors it opened.", "quantifier": "all histories, all answers of the system, all crash points", "why_tests_cant": "Crashes between two particular calls and failing system calls are outside of the reach of tests.", "anchors": ["support/client/client.cpp:TrackerProcess::TrackerProcess", "support/client/client.cpp:State::start_process", "support/client/client.cpp:State::stop_process", "support/client/client.cpp:State::watchdog_loop", "support/client/client.cpp:TrackerProcess::~TrackerProcess"]}
{"id": "C77", "title": "Crashes and failures are noticed", "statement": "A tracker that has ended is not ready from that moment, the next turn of the watchdog removes it and returns its descriptors; after a request that failed or ended the session the tracker is not ready; a watchdog callback can stop a tracker.", "quantifier": "all reachable states, all crash points, all answers", "why_tests_cant": "It quantifies over every moment a process can end.", "anchors": ["support/client/client.cpp:TrackerProcess::ready", "support/client/client.cpp:State::watchdog_loop", "support/client/client.cpp:State::process_running"]}
{"id": "C78", "title": "The threads of a tracker object never deadlock", "statement": "Whatever calls a client makes on a tracker object, and however its own thread, the watchdog and the logger are interleaved, as long as one of them has not ended some thread can go on: no set of threads waits for each other's mutexes or ends for ever.", "quantifier": "all sequences of calls, all interleavings of the three threads instruction by instruction, all outcomes of what the tracker and the system decide", "why_tests_cant": "a deadlock needs a particular interleaving of three threads with three mutexes; tests see a few schedules", "anchors": ["support/client/client.cpp:TrackerProcess", "support/client/client.cpp:watchdog_loop", "support/client/client.cpp:logger_loop", "support/client/client.cpp:start_process", "support/client/client.cpp:stop_process"]}
{"id": "C79", "title": "Destroying a tracker object ends", "statement": "Once the destructor of a tracker object has told its threads to end, both threads end and the destructor returns after a bounded number of steps, whatever the threads were doing and however they are interleaved.", "quantifier": "all histories, all points at which the destructor may start, all interleavings", "why_tests_cant": "the bound must hold from every state in which the destructor may find the threads", "anchors": ["support/client/client.cpp:TrackerProcess", "support/client/client.cpp:watchdog_loop", "support/client/client.cpp:logger_loop", "support/client/client.cpp:start_process", "support/client/client.cpp:stop_process"]}
{"id": "C80", "title": "No thread uses an object another thread has deleted", "statement": "The process and client objects inside a tracker object are never used by one thread after another has deleted them.", "quantifier": "all sequences of calls and all interleavings of user thread, watchdog and logger", "why_tests_cant": "a use after free needs a switch between two particular instructions", "anchors": ["support/client/client.cpp:TrackerProcess", "support/client/client.cpp:watchdog_loop", "support/client/client.cpp:logger_loop", "support/client/client.cpp:start_process", "support/client/client.cpp:stop_process"]}
{"id": "C81", "title": "A tracker nobody waits for is not stopped by the timeout", "statement": "Between two calls the watchdog stops a tracker only if the tracker has died or a registered callback asks for it; the timeout concerns only the time in which a call waits.", "quantifier": "all interleavings of the watchdog with the calls of the user", "why_tests_cant": "needs a switch inside the decrement of the counter", "anchors": ["support/client/client.cpp:TrackerProcess", "support/client/client.cpp:watchdog_loop", "support/client/client.cpp:logger_loop", "support/client/client.cpp:start_process", "support/client/client.cpp:stop_process"]}
{"id": "C82", "title": "Images survive the conversion to and from OpenCV", "statement": "Converting a colour or gray OpenCV matrix to an image gives an image of the same size and format with the same pixels in the channel order of TraX, and converting it back gives the original matrix, also when the matrix is part of a larger one.", "quantifier": "all matrices: sizes, types, contents, row distances", "why_tests_cant": "pixel contents, sizes and layouts are unbounded", "anchors": ["support/opencv/opencv.cpp:mat_to_image", "support/opencv/opencv.cpp:image_to_mat"]}
{"id": "C83", "title": "Masks survive the conversion to and from OpenCV", "statement": "Converting a mask region to an OpenCV matrix gives a matrix that has the value of the mask at every position inside it and zero elsewhere; converting a matrix of bytes to a mask gives its values.", "quantifier": "all masks (position, size, contents), all matrices (size, layout, contents)", "why_tests_cant": "the position of a mask is unbounded and small tests use masks at the origin", "anchors": ["support/opencv/opencv.cpp:region_to_mat", "support/opencv/opencv.cpp:mat_to_region"]}
{"id": "C84", "title": "Rectangles and points survive the conversion to and from OpenCV", "statement": "An OpenCV rectangle or list of points converted to a region and back is unchanged; a region converted to an OpenCV rectangle is rounded to the nearest integers.", "quantifier": "all rectangles and lists of points, all finite regions", "why_tests_cant": "depends on float precision over the whole int range", "anchors": ["support/opencv/opencv.cpp:region_to_rect", "support/opencv/opencv.cpp:rect_to_region", "support/opencv/opencv.cpp:region_to_points", "support/opencv/opencv.cpp:points_to_region"]}
{"id": "C85", "title": "Every tracker object has a port of its own and tells it to its trackers", "statement": "In every history of a client's tracker objects that use sockets, each object listens on a port no other object has, the port it tells its trackers is the one on which it listens, it takes the first usable one of the next ten ports, throws when there is none, and gives its descriptor back when it is destroyed.", "quantifier": "all histories of creations and destructions, all answers of the system, all descriptor tables", "why_tests_cant": "Ports wrap around after tens of thousands of objects; failing system calls and closed standard streams do not occur in tests.", "anchors": ["support/client/client.cpp:State::State", "support/client/client.cpp:create_server_socket", "support/client/client.cpp:destroy_server_socket"]}
{"id": "C86", "title": "A tracker connects to the client that started it", "statement": "In each of the three connection modes a tracker that sets up its server without naming a connection talks to the client that started it, whatever the environment of that client.", "quantifier": "all environments of the client, all variables given, all descriptor tables", "why_tests_cant": "The environment of the client is outside of a test's control; clients that are trackers themselves have unusual ones.", "anchors": ["support/client/client.cpp:State::start_process", "src/trax.c:trax_server_setup_v", "support/client/process.cpp:Process::start"]}
{"id": "C87", "title": "Setting up a tracker over a socket ends", "statement": "A tracker that is told to use a socket either gets connected or reports that it cannot.", "quantifier": "all sequences of answers of connect, all failures of the system calls before it", "why_tests_cant": "A test cannot see that a call never returns.", "anchors": ["src/message.c:create_message_stream_socket_connect", "src/trax.c:trax_server_setup_v"]}
{"id": "C88", "title": "A client with sockets is connected to the process it started, within its timeout", "statement": "A launch gives the connection of the process just started, if that connects within the timeout, and fails when the timeout has passed; no timeout means waiting for ever.", "quantifier": "all histories of launches, ends and waiting times, all timeouts", "why_tests_cant": "Connections of earlier processes stay in the queue of the socket; whether they do depends on the timing of processes.", "anchors": ["src/message.c:create_message_stream_socket_accept", "support/client/client.cpp:State::start_process", "src/trax.c:trax_client_setup_socket"]}
{"id": "C89", "title": "Images keep their pixels between Matlab and the protocol", "statement": "A Matlab array of 8 or 16 bit numbers becomes an image whose pixel in column x and row y is the element in row y and column x (plane k is channel k), every received image is shown as such an array, a path as a text, and what is shown is understood as the same image when it is given back.", "quantifier": "all arrays and images of all sizes and formats, all paths and URLs", "why_tests_cant": "Matlab stores columns, the protocol rows: an index that is wrong only for images that are not square, or for one plane, passes tests with square or gray images; sizes are unbounded.", "anchors": ["support/matlab/helpers.cpp:image_to_array", "support/matlab/helpers.cpp:array_to_image"]}
{"id": "C90", "title": "Regions keep their points between Matlab and the protocol", "statement": "Every region that Matlab gets is shown as an array with the same numbers (masks: the same pixels at the same places), which is understood as the same region when it is given back; arrays that are no regions are refused.", "quantifier": "all regions: rectangles, polygons with any number of points, masks with any offset, special codes; all matrices", "why_tests_cant": "Offsets of masks, the numbers of rows and columns are arbitrary, and a wrong index writes outside of the array without a visible error.", "anchors": ["support/matlab/helpers.cpp:region_to_array", "support/matlab/helpers.cpp:array_to_region"]}
{"id": "C91", "title": "Properties keep their names and values between Matlab and the protocol", "statement": "Properties are shown to Matlab as a cell array of names and values or as a structure with a field for each, and both are understood as the same properties when they are given back.", "quantifier": "all sets of properties, all names and values", "why_tests_cant": "Names with characters that Matlab does not allow, and the number of properties, are arbitrary.", "anchors": ["support/matlab/helpers.cpp:parameters_to_cell", "support/matlab/helpers.cpp:cell_to_parameters", "support/matlab/helpers.cpp:parameters_to_struct", "support/matlab/helpers.cpp:struct_to_parameters"]}
{"id": "C92", "title": "Names of formats and lists of images mean the same in Matlab", "statement": "A list of names of region types, image types or channels means the set of these types in whatever order, direction and letter case; unknown names are errors; the lists that Matlab gets mean the set itself; a list of images is a row of arrays in the order of the channels.", "quantifier": "all lists of names, all sets of formats, all lists of images", "why_tests_cant": "There are infinitely many spellings and orders, and the sets come from another process.", "anchors": ["support/matlab/helpers.cpp:get_flags", "support/matlab/helpers.cpp:decode_region", "support/matlab/helpers.cpp:decode_image", "support/matlab/helpers.cpp:decode_channels", "support/matlab/helpers.cpp:images_to_array", "support/matlab/helpers.cpp:array_to_images"]}
{"id": "C93", "title": "Calls of the Matlab server with wrong arguments are errors", "statement": "A call of traxserver takes the last value given for each name into the description of the tracker, refuses reserved names, and every other list of arguments gives an error message without touching memory that is not its own.", "quantifier": "all lists of arguments of setup, wait and quit", "why_tests_cant": "Reading an argument that was not given usually goes unnoticed in a test.", "anchors": ["support/matlab/traxserver.cpp:mexFunction", "support/matlab/helpers.cpp:get_argument_code"]}
{"id": "C94", "title": "C++ lists send what they show", "statement": "After any program over C++ object and image lists, sending a list variable sends exactly the elements that its get shows, and never touches memory that was released, however the list was constructed, copied, moved, assigned, received and changed.", "quantifier": "every sequence of constructions, copies, moves, assignments, destructions, receptions, gets and sets over any number of list and element variables", "why_tests_cant": "the two representations drift apart only along particular alias patterns", "anchors": ["src/traxpp.cpp:ObjectList::set", "src/traxpp.cpp:ImageList::set", "src/traxpp.cpp:ObjectList::wrap", "src/traxpp.cpp:ImageList::wrap", "src/traxpp.cpp:ObjectList::cleanup", "src/traxpp.cpp:ImageList::cleanup"]}
{"id": "C95", "title": "C++ lists show what was put into them", "statement": "A C++ object or image list shows the elements that were set in this variable or received into it, as a value of its own: changing one list never changes what another shows, and a reception replaces everything.", "quantifier": "every sequence of constructions, copies, moves, assignments, destructions, receptions, gets and sets over any number of list and element variables", "why_tests_cant": "all alias patterns and all combinations of missing elements", "anchors": ["src/traxpp.cpp:ObjectList::get", "src/traxpp.cpp:ImageList::get", "src/traxpp.cpp:ImageList::has", "src/traxpp.cpp:ImageList::wrap"]}
{"id": "C96", "title": "Python properties hold Unicode texts", "statement": "In Python, a property's value is the text that was set last for its key, whatever Unicode text it is; dict shows exactly the keys and values that are set; properties copied or given to a constructor are shown as they are in the source; properties received from the peer are shown as their UTF-8 texts.", "quantifier": "every sequence of sets and copies with every Unicode text, every dictionary received", "why_tests_cant": "all texts, encodings of any length and all dictionaries, including those received from a peer written in another language", "anchors": ["support/python/trax/__init__.py:Properties", "support/python/trax/_ctypes.py:trax_properties_set"]}
{"id": "C97", "title": "Python loggers get the text of the connection", "statement": "A Python logger is called with the pieces of text that are sent and received: put together they are the messages as they are on the wire, and nothing outside of the exchanged text is read.", "quantifier": "every message sent (arguments, properties), every sequence of characters received", "why_tests_cant": "all messages; what lies behind a character on the stack cannot be controlled by a test", "anchors": ["support/python/trax/__init__.py:Logger", "src/message.h:LOG_CHAR", "src/message.c:write_string"]}
{"id": "C98", "title": "Python images keep their content", "statement": "An image created in Python from an array, a path, an address or the bytes of an image file shows the same content again: the array has the same rows, columns, channels and values, for every layout of the array in memory; the text and the bytes are the same; the description names the format. Inputs that are no images are refused with an exception.", "quantifier": "every NumPy array (element type, shape, strides, start), every text, every byte string", "why_tests_cant": "all strided views of arrays, all shapes and element types, all byte strings", "anchors": ["support/python/trax/image.py:MemoryImage", "support/python/trax/image.py:BufferImage", "support/python/trax/image.py:FileImage", "support/python/trax/image.py:URLImage"]}
{"id": "C99", "title": "Python masks keep their pixels", "statement": "A mask created in Python from an array at an offset has the pixels of the array; array gives them back, and normalized it shows every pixel at its place in the image. Arrays that are no masks are refused with an exception.", "quantifier": "every NumPy array (element type, shape, strides, start), every offset", "why_tests_cant": "all strided views of arrays and offsets", "anchors": ["support/python/trax/region.py:Mask"]}
{"id": "C100", "title": "Python: the client sees what the tracker announced", "statement": "When a tracker written with the Python Server class and a client written with the Python Client class connect, the client's formats, channels, tracker name, description, family, custom properties and multi-object flag are those given to the Server, no matter how the greeting is cut into pieces; a Server given a name of a format or channel that does not exist raises an exception and is not started.", "quantifier": "all region, image and channel name lists, all texts and custom property dictionaries, all ways the greeting is cut and all write schedules without errors", "why_tests_cant": "The names pass through bit masks, C strings, the message syntax and back to names and dictionaries; tests try a few trackers, not every combination of names, texts and cuts.", "anchors": ["support/python/trax/server.py:Server.__init__", "support/python/trax/client.py:Client.__init__", "support/python/trax/region.py:Region.encode_list", "support/python/trax/image.py:Image.encode_list", "src/trax.c:trax_client_setup_file"]}
{"id": "C101", "title": "Python: a session conveys requests, states and reasons", "statement": "In any session of a Python client and a Python tracker every initialize and frame call of the client shows up as one request of that type with the same images, objects and properties, every status call of the tracker shows up as the result of the client's call with the same regions and properties, and when one side quits the other side sees the end and the reason that was given.", "quantifier": "all numbers of rounds, all images, objects, properties, states and reasons, all ways the bytes are cut into pieces", "why_tests_cant": "The result depends on the whole history (number of tracked objects, announced formats) and on every byte pattern of the arguments; no finite number of sessions covers this.", "anchors": ["support/python/trax/server.py:Server.wait", "support/python/trax/server.py:Server.status", "support/python/trax/server.py:Server.quit", "support/python/trax/client.py:Client.initialize", "support/python/trax/client.py:Client.frame", "support/python/trax/client.py:Client.quit", "support/python/trax/__init__.py:wrap_objects"]}
{"id": "C102", "title": "A session gives back all memory, once", "statement": "A client or server that releases the lists it gets and calls cleanup at the end frees every block the library allocated for it exactly once and never uses a freed or missing block, whatever it calls in whatever order and whatever messages arrive, including failures in the middle of a list of images or objects.", "quantifier": "all sequences of calls, all announced formats and channels, all messages with any arguments that decode or do not decode", "why_tests_cant": "Leaks and double frees sit on failure paths that depend on which argument of which message of a history fails; there are unboundedly many.", "anchors": ["src/trax.c:client_setup", "src/trax.c:server_setup", "src/trax.c:trax_client_wait", "src/trax.c:trax_client_initialize", "src/trax.c:trax_client_frame", "src/trax.c:trax_server_wait_mot", "src/trax.c:trax_server_wait_sot", "src/trax.c:trax_server_reply_mot", "src/trax.c:trax_terminate", "src/trax.c:trax_cleanup"]}
{"id": "C103", "title": "Python: objects give back their memory, once", "statement": "A Python program that makes images, regions and properties, opens a client or tracker session, sends, waits and quits, never makes the C library use memory that was freed, and once all its objects are collected nothing the library allocated is left, in whatever order the garbage collector takes the objects.", "quantifier": "all programs of any length, all orders and moments of collection, all messages that arrive", "why_tests_cant": "The moment of collection depends on reference counts, tracebacks and the interpreter; a leaked C block has no visible effect in Python.", "anchors": ["support/python/trax/__init__.py:HandleWrapper", "support/python/trax/__init__.py:Properties", "support/python/trax/__init__.py:wrap_object_list", "support/python/trax/server.py:Server.wait", "support/python/trax/client.py:Client.initialize"]}
{"id": "C104", "title": "Command line options do what the help says", "statement": "For each of traxclient, traxtest and traxplayer: options written in any documented way (letters together in a word, an argument in the same word or in the next) followed by a tracker command, with or without two dashes, have the effects the program's help text describes, in order, and the words of the command are taken unchanged; -h ends with status 0. No command line whatsoever makes the program read outside of its words or use an argument that is not there.", "quantifier": "all sequences of options, ways to write them, argument texts without null bytes, numbers in range, tracker commands; all lists of words for the second part", "why_tests_cant": "The options can be combined and written in infinitely many ways; a test exercises a few, and a missing colon in an option string shows only when that option is given", "anchors": ["support/client/getopt.c:getopt", "support/client/cli.cpp:main", "support/client/tester.cpp:main", "support/client/player.cpp:main", "docs/support.rst"]}
{"id": "C105", "title": "The test utility passes exactly the trackers that work", "statement": "traxtest exits with status 0 exactly when the tracker starts, accepts one of the image kinds buffer, memory or path, and in every round accepts the initialization and answers everything it is sent; what it sends is always the beginning of a fixed script of an initialization with one object (three for multi-object trackers) and twenty frames, in every fifth with a new object for multi-object trackers; the picture it sends is the one of the resource.", "quantifier": "all trackers (answers in every round and frame, formats, kinds), numbers of rounds", "why_tests_cant": "The verdict must be right for every behaviour of a tracker, not for the few at hand", "anchors": ["support/client/tester.cpp:main", "support/client/tester_resources.c"]}
{"id": "C106", "title": "The player tracks the region the user marks", "statement": "traxplayer initializes the tracker with the rectangle the user drags with the mouse and confirms with the space key, whatever was done before; Q cancels the selection.", "quantifier": "all sequences of mouse and key events, videos", "why_tests_cant": "All orders of user events; interactive programs are not covered by tests", "anchors": ["support/client/player.cpp:main", "support/client/player.cpp:get_region_interactive", "support/client/player.cpp:on_mouse", "support/client/client.cpp:TrackerProcess"]}
{"id": "C107", "title": "A failed call explains itself", "statement": "After a call that sends something (frame, initialize, reply) the handle has an error message exactly if the call failed, and it fails exactly if there is a reason: the handle was terminated, no object or too many objects were given, the mode does not allow the call, the number of replies is wrong or an announced image is missing. The message names this reason. After any call that succeeds there is no error message left.", "quantifier": "all handles, calls, arguments, and histories before the call", "why_tests_cant": "Every combination of handle state and arguments has to be told apart; a test checks that some call fails, rarely the text, and never that an earlier text is gone after each kind of success.", "anchors": ["include/trax.h:trax_get_error", "src/trax.c:set_error", "src/trax.c:clear_error", "src/trax.c:trax_client_frame", "src/trax.c:trax_client_initialize", "src/trax.c:trax_server_reply_sot", "src/trax.c:trax_server_reply_mot", "src/trax.c:trax_client_wait", "src/buffer.h:buffer_append"]}
{"id": "C108", "title": "Options of the Matlab client", "statement": "The Matlab client function takes pairs of an option name, in any letter case, and a value after the command and the callback. Every option has its effect on the tracker process that is started, whatever the order; of several values of one option the last counts, variables of several environment structures come together, a name that is not an option is an error, and no value leads to undefined behaviour.", "quantifier": "every list of option pairs, every spelling of the names, every value", "why_tests_cant": "The number and order of options is unbounded, and the effect of one must not depend on the others.", "anchors": ["support/matlab/traxclient.cpp:mexFunction", "support/matlab/traxclient.cpp:get_connection_mode", "support/matlab/traxclient.cpp:struct_to_env", "support/matlab/helpers.cpp:get_argument_code"]}
{"id": "C109", "title": "Sessions of the Matlab client", "statement": "In every turn the Matlab client gives its callback the last answer of the tracker (region, properties, time) and the data that the callback returned before; it then sends exactly what the callback asks for: a start with the images, region and parameters (after a restart if the tracker was running), or a frame. The session ends with the callback's data when no image is asked for, and with an error when the tracker or the callback fails. What is shown of an answer is that answer's own.", "quantifier": "every callback, every sequence of answers and failures of the tracker, sessions of any length", "why_tests_cant": "The callback is an arbitrary function of all earlier answers and its own data; only an induction over the turns covers all sessions.", "anchors": ["support/matlab/traxclient.cpp:mexFunction", "support/matlab/traxclient.cpp:call_callback", "src/traxpp.cpp:Client::wait", "support/client/timer.cpp:timer_elapsed"]}
{"id": "C110", "title": "Sessions with the C++ classes", "statement": "With the C++ classes Client and Server (one object), what the client gives to initialize and frame (images, region, properties) is what the server's wait returns, and the region and properties the server gives to reply are what the client's wait returns, in every round of a session.", "quantifier": "every session of any length, all regions, images and properties that can be sent, every cutting of the byte streams, both server classes and all protocol versions", "why_tests_cant": "Sessions are unbounded and the wrappers put objects together and take them apart for every call; which argument of a copying call is source and which is drain cannot be seen from the types.", "anchors": ["src/traxpp.cpp:Client::initialize", "src/traxpp.cpp:Client::frame", "src/traxpp.cpp:Client::wait", "src/traxpp.cpp:ServerMOT::wait", "src/traxpp.cpp:ServerMOT::reply", "src/traxpp.cpp:ServerSOT::wait", "src/traxpp.cpp:ServerSOT::reply"]}
{"id": "C111", "title": "Calls of a Matlab tracker", "statement": "Calls of traxserver in any order keep the connection in order: without a connection wait and status fail and change nothing and quit does nothing; unknown operations fail and change nothing; quit sends exactly one quit message carrying the reason and closes the connection; when the client quits, wait returns empty arrays and closes the connection; no sequence of calls loses an open connection without a quit message; every documented operation exists.", "quantifier": "All sequences of calls with any arguments and numbers of outputs, all states of the connection.", "why_tests_cant": "The order of calls is up to the program; a lost connection shows only at the other end.", "anchors": ["support/matlab/traxserver.cpp:mexFunction", "docs/api_matlab.rst", "src/traxpp.cpp:Handle::terminate"]}
{"id": "C112", "title": "Sessions of a Matlab tracker", "statement": "A tracker written in Matlab that calls setup and then wait and status in turn announces to the client the formats, name, description, family and custom properties it gave to setup; it sees in every round the images, the region and the properties the client sent, as Matlab arrays; and the client sees the region and the properties given to status.", "quantifier": "All formats and options of setup, all numbers of rounds, images, regions and properties that can be sent and shown, both forms of properties, all ways the bytes are cut on their way.", "why_tests_cant": "A test plays one session; what arrives depends on conversions between Matlab, C++ and the protocol for every kind of image, region and property.", "anchors": ["support/matlab/traxserver.cpp:mexFunction", "support/matlab/helpers.cpp", "src/traxpp.cpp:ServerMOT", "src/trax.c"]}
{"id": "C113", "title": "Tracker metadata in C++", "statement": "A C++ metadata object shows the formats, channels, name, description and family it was made with and the last value given for each custom property; the object that metadata() returns on the client shows, after the handshake, what the tracker announced: formats known to the protocol, channels, texts and custom properties.", "quantifier": "All formats, channel sets, texts and custom properties the protocol can carry, all protocol versions, all ways the bytes are cut.", "why_tests_cant": "A test announces one tracker; absent texts, repeated custom properties and each version take different paths through two copies of the metadata.", "anchors": ["src/traxpp.cpp:Metadata", "src/traxpp.cpp:Handle::metadata", "src/trax.c:trax_metadata_create", "src/trax.c:trax_client_setup_file"]}
{"id": "C114", "title": "Values of C++ dictionaries", "statement": "After any sequence of calls that set texts, ints and floats, clear the dictionary or take over a std::map, each getter returns what the name was last set to, or the given default when it is not set; size, to_vector, to_map and printing show exactly the names that are set, each once and with the text that the getter returns; a std::map taken over by from_map comes back from to_map.", "quantifier": "All sequences of calls, names, texts, ints, finite floats, maps and defaults.", "why_tests_cant": "A test sets a few values; overwriting, clearing, the never used dictionary and the conversion of defaults need every history.", "anchors": ["src/traxpp.cpp:Properties", "src/trax.c:trax_properties_get_float"]}
{"id": "C115", "title": "The stationary example tracker reports what it was given", "statement": "In every session with the stationary tracker that serves as an example for developers, each wait of the client returns one state for each object given since the last initialization, in that order, with the region and the properties the client gave; when the client ends the session the tracker leaves its loop and ends with all its memory released.", "quantifier": "All numbers of requests, initializations, frames with and without new objects, regions, properties, image channels, and ways the bytes are cut.", "why_tests_cant": "A test plays one session with one object; the list of objects grows and is replaced over the history, and every region passes the text form twice.", "anchors": ["support/tests/static/native_static.c:main", "src/trax.c:trax_object_list_append"]}
{"id": "C116", "title": "Trackers may print on the protocol's output", "statement": "Text a tracker prints on the same output as its messages, without the message prefix, is never noticed by the client: the connection is set up, every call returns the same codes, objects, properties and metadata, and the client sends the same messages as if nothing had been printed, in sessions of any length.", "quantifier": "every history of client calls (setup, initialize, frame, wait, terminate with any arguments), every interleaving of the tracker's own lines with its messages, every way the output is cut into pieces, sessions of any length in protocol versions 1 to 4", "why_tests_cant": "a tracker's own prints come at arbitrary points before, between and after messages and are split arbitrarily by the pipe; tests only use quiet trackers", "anchors": ["src/message.c:read_message", "src/trax.c:trax_client_setup_file", "src/trax.c:trax_client_wait", "docs/protocol.rst", "support/tests/static/native_static.c"]}
{"id": "C117", "title": "Regions made in Python are what they were made of", "statement": "A rectangle, polygon or special region created from Python numbers returns the same numbers: the bounds of a rectangle and the points of a polygon (by index and in a loop, in order, and as many as were given) are the numbers given, rounded to single precision at most, a code comes back unchanged; invalid arguments and indices raise an exception without side effects, and an object is always of the class of the native region's type.", "quantifier": "all Python ints and floats as coordinates, all lists of tuples of any length, all indices and codes, all native regions", "why_tests_cant": "The numbers pass through two roundings and a modular conversion; a test fixes a few numbers and lists, not every number, every length and every position of a bad point.", "anchors": ["support/python/trax/region.py:Special.create", "support/python/trax/region.py:Rectangle.bounds", "support/python/trax/region.py:Polygon.create", "support/python/trax/region.py:Polygon.get", "support/python/trax/region.py:PolygonIterator", "support/python/trax/region.py:Region.wrap", "src/trax.c:trax_region_set_polygon_point"]}
{"id": "C118", "title": "A dictionary keeps what it holds when memory runs out", "statement": "When an allocation fails during a call on a property dictionary, that call leaves the dictionary as it was (an append may add only some of the pairs, a cleared dictionary is empty), no call crashes, every other call behaves as usual, and releasing the dictionary gives back every block exactly once.", "quantifier": "all sequences of calls on a dictionary (set, append, get, has, count, enumerate, clear) and all patterns of failing allocations", "why_tests_cant": "Tests run with plenty of memory; which of the up to three allocations of a call fails, and what was stored before, gives unboundedly many cases that are never exercised.", "anchors": ["src/strmap.c:sm_put", "src/strmap.c:sm_new", "src/strmap.c:sm_delete", "src/trax.c:trax_properties_create", "src/trax.c:trax_properties_clear", "src/trax.c:trax_properties_get", "src/trax.c:trax_properties_set"]}
{"id": "C119", "title": "Evaluating a stationary tracker gives a stationary trajectory", "statement": "When the command-line client evaluates the stationary example tracker on a sequence, the trajectory file has one line per frame of the shorter of image list and ground truth: 1 where the tracker was launched, then the very region it was launched with until the failure criterion is met, 2 there, and 0 for frames that are not tracked.", "quantifier": "all image lists, ground truth files, failure criteria, reinitialization offsets, and all ways in which the bytes between the two programs are cut", "why_tests_cant": "It composes two programs, the protocol between them and three file formats; a test runs one sequence.", "anchors": ["support/client/cli.cpp:main", "support/tests/static/native_static.c", "support/client/client.cpp:TrackerProcess::initialize", "support/client/client.cpp:save_trajectory", "src/traxpp.cpp:Client::wait"]}
{"id": "C120", "title": "All region functions use memory as if regions were independent values", "statement": "An application that creates, decodes, clones, converts, compares, encodes, queries, changes and releases regions in any order gets from each call what it would get if regions were independent values; temporary regions made inside a call never show; and once it has released every region it was given, no memory is left.", "quantifier": "all sequences of calls of the region functions, all region values, either bounds convention", "why_tests_cant": "Leaks, double releases and shared arrays depend on the order of calls and on which branch of a conversion runs; a test sees one order and no memory.", "anchors": ["src/region.c:region_convert", "src/region.c:region_compute_overlap", "src/region.c:region_parse", "src/region.c:region_get_mask_header", "src/trax.c:trax_region_get_bounds", "src/trax.c:trax_region_decode", "src/trax.c:trax_region_release"]}
{"id": "C121", "title": "A tracker gets regions in a format it announced", "statement": "Whatever format the regions of a client are in, every object reaches the tracker in a format the tracker announced: in its own format if that was announced, otherwise as a mask, else a polygon, else a rectangle, and it marks the same place: the pixels of a rectangle, the tight box of the set pixels of a mask, the box of the points of a polygon.", "quantifier": "all sets of announced formats, all protocol versions, all histories of initialize and frame calls with any number of objects in any format, all ways the bytes are cut into pieces", "why_tests_cant": "The conversion depends on the combination of the announced set, the region's format and its coordinates, and its result is only seen at the other end of a session; tests use one or two combinations.", "anchors": ["src/trax.c:trax_client_initialize", "src/trax.c:trax_client_frame", "src/trax.c:region_autoconvert", "src/region.c:region_convert", "src/trax.c:trax_server_wait_mot", "src/trax.c:trax_server_wait_sot"]}
{"id": "C122", "title": "A frame counts as a failure exactly when the overlap is at most the threshold", "statement": "With a failure threshold (-f), the evaluation client counts a frame as a failure exactly when the spatial Jaccard index of the tracker's region and the ground truth, over all pixels or (TRAX_BOUNDED_OVERLAP) over the pixels of the image, is at most the threshold; without a threshold no frame fails. The trajectory then has 1 where the tracker was started, its states while it tracks, 2 where it failed and 0 where it was not running.", "quantifier": "every threshold text, ground truth, initialization, sequence of images and of tracker states, and reinitialization offset", "why_tests_cant": "Rounding, thin or clipped regions and sizes read from image headers affect single frames of single sequences; a test compares a few rectangles.", "anchors": ["support/client/cli.cpp:main", "support/client/cli.cpp:image_get_size", "src/traxpp.cpp:Region::overlap", "src/trax.c:trax_region_overlap", "src/region.c:region_compute_overlap"]}
{"id": "C123", "title": "Evaluating the stationary tracker marks exactly the frames whose object has left its starting place", "statement": "When the command-line client evaluates the stationary tracker with a failure threshold, the trajectory file has one line per frame: 1 where the tracker was started, 2 where the ground truth of the frame overlaps with that of the starting frame by at most the threshold, 0 where no tracker runs, and otherwise exactly the region of the starting frame.", "quantifier": "all image lists, all ground-truth files, all values of -f, all reinitialization offsets, all ways in which the bytes between client and tracker are cut into pieces", "why_tests_cant": "Every pair of frames is a case of its own: which frame the tracker was started at depends on all earlier failures, and each decision depends on pixel counts, on rounding, and on the region surviving three text forms.", "anchors": ["support/client/cli.cpp:main", "support/client/cli.cpp:save_trajectory", "support/tests/static/native_static.c:main", "src/region.c:region_compute_overlap", "src/trax.c:trax_client_wait"]}
{"id": "C124", "title": "Overlap is symmetric, lies between 0 and 1, and is 1 for a region with itself", "statement": "The overlap of two regions does not depend on their order: exchanging them gives the same overlap and exchanges the two shares outside of it. The overlap and the shares are numbers from 0 to 1, and a region overlaps itself completely.", "quantifier": "every pair of regions (rectangles and polygons with any float coordinates including infinities and NaN, masks, special regions), all bounds, both rasterisation modes", "why_tests_cant": "The result depends on float rounding of boxes, on clipping, on which of several comparisons drops a NaN and on rasterisation; a few pairs cannot show that no input breaks symmetry or leaves the unit interval.", "anchors": ["src/region.c:region_compute_overlap", "src/region.c:bounds_overlap", "src/region.h:MIN", "src/trax.c:trax_region_overlap"]}
{"id": "C125", "title": "The example trackers of the OpenCV support answer every request with the state they found for it", "statement": "In every session with the interactive example tracker, each request of the client is answered with exactly one state, which shows the rectangle the user marked for that picture: of the size last given by the client and centred where the user clicked. The tracker accepts rectangles and pictures given as files, in memory or in buffers, as it means to announce. The camshift example likewise answers each request with exactly one state, that for the picture sent.", "quantifier": "every session of a client with the tracker: number of requests and re-initializations, rectangles, files, places of the user's clicks, cutting of the bytes; for the failure every byte sequence a client may send", "why_tests_cant": "the programs need a window and a user; that no client at all can get an answer is a statement about every byte sequence", "anchors": ["support/opencv/interactive.cpp main", "support/opencv/interactive.cpp on_mouse", "support/opencv/camshift.cpp main", "support/opencv/opencv.cpp image_to_mat", "support/opencv/opencv.cpp region_to_rect", "src/traxpp.cpp Metadata::Metadata"]}
{"id": "C126", "title": "The example tracker written in Python reports the object of the latest initialization for every frame", "statement": "A session of a Python client with the example tracker support/tests/static/python_static.py: the client is told that the tracker understands rectangles and images given as paths; every call of initialize and frame returns one object, whose region is the region given with the latest initialization (coordinates up to the fifth decimal) and whose properties are the ones given with it. Complete lines the tracker prints in between change nothing. When the client quits, the tracker leaves its loop without an exception and without another message. A property time_wait that comes with an initialization does not end the session.", "quantifier": "all numbers and orders of initializations and frames, all rectangles with finite coordinates, object and request properties of 7-bit characters, all times to wait, all lines the tracker prints, all cuts of the streams into pieces", "why_tests_cant": "The test runs a fixed sequence with one rectangle; the claim is about every history of requests, every text of the property and every split of the streams.", "anchors": ["support/tests/static/python_static.py", "support/python/trax/server.py:Server.wait", "support/python/trax/server.py:Server.status", "support/python/trax/server.py:Server.__exit__", "support/python/trax/__init__.py:Properties.get"]}
{"id": "C127", "title": "The example tracker written in Matlab reports the polygon of the latest initialization for every frame", "statement": "A client connects to the example tracker support/tests/static/matlab_static.m and is told that it understands polygons, and images given as paths, pixels or image files. Every initialization and every frame in these formats is answered with the polygon of the latest initialization, coordinates up to the fifth decimal, whatever properties come with it. When the client quits, the tracker leaves its loop without an error and without another message, and its connection is closed.", "quantifier": "All numbers and orders of initializations and frames, all polygons of at least three corners with finite coordinates, all images that can be delivered as paths, pixels or files, all request properties that can be sent, all reasons for quitting, all ways the bytes are cut into pieces, both settings of the legacy switch.", "why_tests_cant": "The tracker has to keep the polygon through any number of requests and through two conversions between the library and Matlab arrays; a test plays one sequence.", "anchors": ["support/tests/static/matlab_static.m", "support/matlab/traxserver.cpp:mexFunction", "support/matlab/helpers.cpp:region_to_array", "support/matlab/helpers.cpp:array_to_region", "support/matlab/helpers.cpp:images_to_array", "src/traxpp.cpp:ServerMOT::wait"]}
{"id": "C128", "title": "A message whose sender dies while writing it is not taken for a whole one", "statement": "If one side dies after any byte of a message, everything it sent before is received as it was sent, and the read of the unfinished message reports an error; no part of the unfinished message is handed over as if it was the whole message. A client waiting for the answer of a tracker about any number of objects gets an error if the tracker dies after any byte of its answer, and so does a tracker waiting for a request if the client dies after any byte of it.", "quantifier": "all sequences of messages sent before, all messages, all bytes of the message as the point where the sender dies, all partial writes and all ways of cutting the stream into read results; any number of objects in an answer", "why_tests_cant": "every byte of every message is a possible crash point; tests kill a process at one or two of them, and the result depends on the bytes already delivered", "anchors": ["src/message.c:read_message", "src/message.c:write_message", "src/trax.c:trax_client_wait", "src/trax.c:trax_server_wait_sot", "src/trax.c:trax_server_wait_mot"]}
{"id": "C129", "title": "The failing test tracker dies exactly when and how it was told to", "statement": "In a session with the test tracker support/tests/bad/badtracker.cpp every request is answered with the object of the last initialization until the tracker has answered as many requests since then as the property break_time of that initialization said (5 if it is missing, at least one). Right after that answer, and not before, it dies by the signal named by break_type (SIGABRT unless sigsegv or sigusr1). From then on every wait of the client returns an error, and does not block or report a state, whatever becomes of the frames it still writes. If the client quits earlier, the tracker leaves its loop. Every value of break_time is handled without undefined behaviour.", "quantifier": "every sequence of requests (initializations and frames, one rectangle), all properties, all ways the bytes are cut on the way, all numbers of requests before and after a new initialization", "why_tests_cant": "A test runs one break_time and one signal; the crash point, the order of new initializations and the way bytes arrive range over unboundedly many histories.", "anchors": ["support/tests/bad/badtracker.cpp:main", "src/traxpp.cpp:ServerMOT::wait", "src/traxpp.cpp:ServerMOT::reply", "src/traxpp.cpp:Properties::get", "src/trax.c:trax_client_wait"]}
{"id": "C130", "title": "Nothing the other side sends can crash a wait or a connection, or keep it waiting after the end", "statement": "Whatever bytes the other process writes, a client that connects, a client that waits and a server that waits (for one or for several objects) never do anything undefined and are never ended by an assertion. Once the other side has closed its end, the call returns: a result, an error or the end of the session.", "quantifier": "every stream of bytes, however it is cut into pieces and wherever it ends; every number of expected objects; every handle in its role with at least one image channel; every dictionary of the caller", "why_tests_cant": "The other process is a foreign program that may write anything; tests try a few well-formed sessions.", "anchors": ["src/trax.c:trax_client_setup", "src/trax.c:trax_client_wait", "src/trax.c:trax_server_wait_sot", "src/trax.c:trax_server_wait_mot", "src/message.c:read_message", "src/region.c:region_parse"]}
{"id": "C131", "title": "The tutorial client shows a tracker every picture and ends when the tracker does", "statement": "With a tracker that starts and answers in time, the tutorial client shows it picture after picture (00000001.jpg, 00000002.jpg, ...), without leaving one out or changing the order, begins anew at every fiftieth picture with the region that the ground truth has for it, and ends after the last region. When the tracker requests termination, fails or is late with a state, the client ends its loop in an orderly way.", "quantifier": "every ground truth of up to INT_MAX regions and every behaviour of a tracker process, its launches and its answers", "why_tests_cant": "A test runs one sequence with one tracker; the claim is about every length, every frame at which a tracker may quit, fail or be late, and the state of the process after it.", "anchors": ["docs/tutorials/client/client.cpp:main", "support/client/client.cpp:TrackerProcess::wait", "support/client/client.cpp:TrackerProcess::frame", "support/client/client.cpp:TrackerProcess::initialize", "support/client/client.cpp:TrackerProcess::ready"]}
{"id": "C132", "title": "The tutorial tracker reads its files as they are and searches only inside its pictures", "statement": "The tutorial tracker takes its pictures and its region from text files: the list is every line up to the first empty one or the end, the region the four numbers of the file. It copies and searches parts of pictures only, around the last place of the object, and every answer has the size of the object and is in the picture, or repeats the one before.", "quantifier": "every file, every rectangle and picture size in the range of exact floats, every sequence of pictures and every place at which a template matches best", "why_tests_cant": "A test has one list, one region and one video; the claim is about every end of file, every border position and every sequence of matches, including pictures too small to be searched.", "anchors": ["docs/tutorials/tracker/ncc.cpp:readsequence", "docs/tutorials/tracker/ncc.cpp:readrectangle", "docs/tutorials/tracker/ncc.cpp:NCCTracker::init", "docs/tutorials/tracker/ncc.cpp:NCCTracker::update", "docs/tutorials/tracker/ncc.cpp:main"]}
{"id": "C133", "title": "Debug messages of the library change nothing but the debug stream", "statement": "Whatever a program did with the debug messages (enabled or disabled them, gave them a stream, asked whether they are on), a client connects as it would without them. They are on or off as the last call said, before any call as the build and the environment variable TRAX_DEBUG say. While they are off nothing is printed; while they are on a message goes to the stream for messages only, with the file name relative to the sources and the line.", "quantifier": "every build, environment, history of debug calls, source directory, file name and input of the client", "why_tests_cant": "A test runs one build with one environment and one history; the claim is about all of them together, and most failing introductions are never tried in a debug build.", "anchors": ["src/debug.c:__debug_enable", "src/debug.c:__is_debug_enabled", "src/debug.c:__debug_set_target", "src/debug.c:__short_file_name", "src/debug.h:DEBUGMSG", "src/trax.c:client_setup"]}
{"id": "C134", "title": "Measured times are true and survive the timings file", "statement": "After the timer of the client library is initialized, the seconds it reports between two moments are the time between the two readings of the system clock, up to less than a microsecond and the rounding of a double, and never negative. The file of timings of the command line client has one line per measurement, in order, and each line tells the measured time to the microsecond.", "quantifier": "all readings of a monotonic clock, all lists of measurements, initialized or not", "why_tests_cant": "The clock, the 64-bit wrap-around, the rounded quotient and the six significant digits of the text interact for every pair of moments; tests see a few durations of their own machine.", "anchors": ["support/client/timer.cpp:timer_init", "support/client/timer.cpp:timer_clock", "support/client/timer.cpp:timer_elapsed", "support/client/cli.cpp:save_timings"]}
{"id": "C135", "title": "The Matlab tutorial tracker finds the object wherever it is in the picture", "statement": "The Matlab tutorial tracker starts with the object it is given: the rectangle with its corners rounded, or the box around a polygon. In every later picture it searches around the last place of the object, and its answer is the best match there, has the size of the object and lies in the picture. An object outside the first picture is refused, and an object at the border or as large as the picture is tracked like any other.", "quantifier": "all picture sizes, all rectangles and polygons, all sequences of pictures and all places of the best match", "why_tests_cant": "Borders, roundings and the size of the response interact for every object and picture size; a demonstration sequence shows one object far from the borders.", "anchors": ["docs/tutorials/matlab/ncc_tracker.m:ncc_initialize", "docs/tutorials/matlab/ncc_tracker.m:ncc_update"]}
{"id": "C136", "title": "A log file has the whole exchange, also after a crash", "statement": "A log file given to the library has every byte sent and received, in order, after every call that exchanged a message. If the program ends in the middle of a message, then the file has all messages before it and the beginning of this one. A missing file or logger changes nothing, and a log that cannot be written is reported.", "quantifier": "all sequences of messages sent and received, all points at which the program may end, every way in which the C library passes bytes to the disk, all sizes of the disk", "why_tests_cant": "When the C library writes its buffer depends on sizes and systems; a test cannot end a program at every call, and small logs fit in one buffer.", "anchors": ["src/trax.c:file_logger", "src/trax.c:trax_logger_setup_file", "src/message.c:write_message", "src/message.c:read_message", "src/message.h:LOG_BUFFER"]}
