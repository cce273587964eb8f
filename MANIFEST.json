{
 "claims": [
  {
   "property": "C01",
   "status": "proved",
   "theorems": [
    "message_round_trip"
   ],
   "note": "For every message in the guard, every partial-write schedule, every chunking, every previous reader state and every suffix."
  },
  {
   "property": "C02",
   "status": "proved",
   "theorems": [
    "message_sequence_round_trip"
   ],
   "note": ""
  },
  {
   "property": "C03",
   "status": "proved",
   "theorems": [
    "decoding_independent_of_chunking"
   ],
   "note": "Any bytes, any two chunkings, any number of reads."
  },
  {
   "property": "C04",
   "status": "proved",
   "theorems": [
    "short_writes_deliver_all",
    "failed_buffer_write_delivers_prefix",
    "dead_stream_delivers_prefix",
    "transient_write_error_refuted"
   ],
   "note": "Extra (outside the statement): a single transient write error silently corrupts the message."
  },
  {
   "property": "C05",
   "status": "proved",
   "theorems": [
    "plain_lines_are_skipped"
   ],
   "note": ""
  },
  {
   "property": "C06",
   "status": "proved",
   "theorems": [
    "message_is_one_line"
   ],
   "note": ""
  },
  {
   "property": "C07",
   "status": "proved",
   "theorems": [
    "reader_is_total",
    "string_buffers_are_safe",
    "string_lists_are_safe"
   ],
   "note": "Reader works on buffer contents; the growing buffers/lists are modelled with explicit allocations and proved to refine contents for every operation history (below 2^31 bytes)."
  },
  {
   "property": "C08",
   "status": "partial",
   "theorems": [
    "end_of_stream_refuted",
    "end_of_stream_partial"
   ],
   "note": "Violated: after any non-empty history the read at EOF returns one more message of the last type. Holds on streams that never carried a message."
  },
  {
   "property": "C09",
   "status": "partial",
   "theorems": [
    "non_ascii_text_refuted",
    "message_round_trip"
   ],
   "note": "Violated: bytes above 127 are taken for end of stream (signed char). Holds for 7-bit text (C01)."
  },
  {
   "property": "C10",
   "status": "partial",
   "theorems": [
    "rejected_line_leaks_refuted",
    "rejected_line_swallows_refuted",
    "rejected_line_spoils_next_refuted",
    "rejected_header_is_isolated_partial",
    "plain_lines_are_skipped"
   ],
   "note": "Violated in three ways; holds for non-protocol lines and for lines with a wrong header."
  },
  {
   "property": "C11",
   "status": "partial",
   "theorems": [
    "log_is_transcript",
    "log_is_what_was_read",
    "log_misses_partial_writes_refuted"
   ],
   "note": "Holds for all successful sends and all 7-bit received streams; violated when a write fails half way (witness)."
  },
  {
   "property": "C12",
   "status": "proved",
   "theorems": [
    "properties_are_a_finite_map"
   ],
   "note": "Any history of set/clear on the hash map gives exactly the finite map of the history: get, has, count and enumeration agree with it."
  },
  {
   "property": "C13",
   "status": "proved",
   "theorems": [
    "properties_storage_safe",
    "properties_are_a_finite_map"
   ],
   "note": "No operation of any history reaches UB (buffer capacity of reused values, copy sizes)."
  },
  {
   "property": "C14",
   "status": "proved",
   "theorems": [
    "int_property_round_trip",
    "int_property_absent"
   ],
   "note": "C locale number formatting; strtod modelled with correct rounding."
  },
  {
   "property": "C15",
   "status": "partial",
   "theorems": [
    "int_text_is_read",
    "not_a_number_yields_default_partial",
    "int_with_junk_yields_default_partial",
    "unconvertible_int_yields_default_refuted"
   ],
   "note": "Violated by the code for the empty text (uninitialised result), fractions (truncated) and values beyond int (undefined conversion): refuted. Proved: texts of in-range integers are read exactly; non-empty texts with no number prefix, and integers followed by junk, give the default."
  },
  {
   "property": "C16",
   "status": "partial",
   "theorems": [
    "append_with_overwrite",
    "copy_is_equal",
    "append_without_overwrite_refuted",
    "append_without_overwrite_partial",
    "external_copy_filters_reserved_keys"
   ],
   "note": "Violated by the code for overwrite=0: the flag test always takes the overwriting callback; refuted theorem gives the witness, partial theorem states what the code does."
  },
  {
   "property": "C17",
   "status": "proved",
   "theorems": [
    "base64_encode_is_rfc4648",
    "base64_encode_fits",
    "base64_roundtrip"
   ],
   "note": "All byte strings; output characters, stored count and decoded bytes."
  },
  {
   "property": "C18",
   "status": "partial",
   "theorems": [
    "base64_decode_of_encoding_fits",
    "base64_decode_bounded_partial",
    "base64_decode_bounded_refuted",
    "base64_decodelen_defined_refuted"
   ],
   "note": "True for encoder output and for texts whose length is a multiple of 4 or that do not end in '='; violated by the code otherwise (e.g. \"AAAA=\" stores one byte too many, \"\" reads before the text)."
  },
  {
   "property": "C19",
   "status": "proved",
   "theorems": [
    "path_image_round_trip",
    "bare_path_is_path"
   ],
   "note": "Every path without NUL."
  },
  {
   "property": "C20",
   "status": "partial",
   "theorems": [
    "url_image_partial",
    "url_image_round_trip_refuted"
   ],
   "note": "Violated for every URL: image_decode restores the colon one character too far, so the receiver sees only the scheme (http). Proved: text sent is the URL, a URL image arrives."
  },
  {
   "property": "C21",
   "status": "partial",
   "theorems": [
    "memory_image_round_trip_partial",
    "memory_image_bounds_refuted",
    "memory_decode_always_overruns_refuted"
   ],
   "note": "Violated for every raw image: base64decode stores a NUL one byte behind the allocated pixels. With an allocator that gives at least one more byte the round trip is proved for all sizes up to 1.6e9 bytes."
  },
  {
   "property": "C22",
   "status": "partial",
   "theorems": [
    "buffer_image_round_trip_partial",
    "buffer_image_length_refuted",
    "exif_jpeg_refuted"
   ],
   "note": "Violated: the received length is one too large. Bytes and format proved."
  },
  {
   "property": "C23",
   "status": "partial",
   "theorems": [
    "rows_inside_partial",
    "rows_disjoint_partial",
    "rows_disjoint_refuted"
   ],
   "note": "Violated for every image wider than one pixel: the row offset does not include the width. Proved: rows lie inside the memory; width one correct."
  },
  {
   "property": "C24",
   "status": "partial",
   "theorems": [
    "special_region_round_trip_partial",
    "special_region_round_trip_refuted"
   ],
   "note": "Proved up to magnitude 2^24; beyond, the code passes codes through single precision: refuted (changed code; undefined conversion for INT_MAX)."
  },
  {
   "property": "C25",
   "status": "proved",
   "theorems": [
    "rectangle_text_is_stable",
    "polygon_text_is_stable"
   ],
   "note": "C locale; correctly rounded printf and strtod."
  },
  {
   "property": "C26",
   "status": "partial",
   "theorems": [
    "mask_text_round_trip_partial",
    "mask_text_round_trip_refuted"
   ],
   "note": "Proved for masks with foreground, numbers and runs up to 2^24. Violated by all-background masks (receiver aborts) and larger offsets: refuted."
  },
  {
   "property": "C27",
   "status": "partial",
   "theorems": [
    "region_decode_is_safe_partial",
    "rect_prefix_decodes_partial",
    "poly_prefix_decodes_partial",
    "region_decode_safe_exactly_partial",
    "region_decode_aborts_exactly",
    "region_decode_is_safe_refuted",
    "region_prefix_is_exact_refuted"
   ],
   "note": "The full statement is false of the code (overruns, assertion failures, undefined conversions, prefixes compared one character short): refuted by concrete texts. The texts that are decoded without harm are characterised exactly (iff), and so are the texts that end the process by an assertion (a scheme with the wrong number of fields)."
  },
  {
   "property": "C28",
   "status": "partial",
   "theorems": [
    "mask_window_partial",
    "mask_window_refuted"
   ],
   "note": "Every window pixel gets the mask's value at that position and nothing else is touched, for all windows whose corner sums stay within int; refuted for a window that ends beyond INT_MAX (signed overflow)."
  },
  {
   "property": "C29",
   "status": "partial",
   "theorems": [
    "mask_rectangle_partial",
    "mask_rectangle_refuted"
   ],
   "note": "The rectangle is the tight box of the set pixels for all masks within 2^24 of the origin; refuted beyond, where float cannot hold the position."
  },
  {
   "property": "C30",
   "status": "partial",
   "theorems": [
    "polygon_bounds",
    "rectangle_bounds_partial",
    "rectangle_bounds_refuted",
    "polygon_rectangle_partial",
    "polygon_rectangle_refuted"
   ],
   "note": "Polygon bounds: proved for all finite coordinates. Rectangle bounds: integer rectangles with sides of at least 1; refuted for narrower ones. Rectangle a polygon converts to: equal to the bounds if some vertex is positive on each axis; refuted for all-negative polygons."
  },
  {
   "property": "C31",
   "status": "partial",
   "theorems": [
    "overlap_is_jaccard_partial",
    "overlap_of_regions_partial",
    "overlap_of_drawn_partial",
    "overlap_with_itself_partial",
    "overlap_is_jaccard_refuted",
    "overlap_outside_bounds_refuted",
    "polygon_pixels_depend_refuted"
   ],
   "note": "Proved for masks and integer rectangles (as pixel sets) and for polygons and any rectangles (as the pixels drawn in the windows used), in any combination, when the clipped boxes are at least two pixels in each direction and share two rows and columns or are apart. The code violates the property otherwise (refuted theorems), and the pixels of a polygon depend on the window, hence on the other region (polygon_pixels_depend_refuted). Legacy rasterisation of polygons is not covered."
  },
  {
   "property": "C32",
   "status": "partial",
   "theorems": [
    "rasterize_partial",
    "rasterize_count_refuted",
    "rasterize_legacy_partial"
   ],
   "note": "Coordinates up to 2^23. Default rasterisation: never out of bounds, pixels 0/1, sum at least the number of pixels set; exact equality is refuted by a bow tie (pixel shared by two runs counted twice). Legacy rasterisation: never out of bounds, sum exactly the number of pixels set, every row follows the even-odd rule on its nodes."
  },
  {
   "property": "C33",
   "status": "proved",
   "theorems": [
    "image_formats_announced",
    "region_formats_announced",
    "channels_announced"
   ],
   "note": "Every set of formats and channels; the fixed 64-byte buffer suffices."
  },
  {
   "property": "C34",
   "status": "partial",
   "theorems": [
    "known_names_partial",
    "unknown_name_refuted"
   ],
   "note": "Violated: an unknown name makes the decoder return -1, which has every bit set, so every format counts as supported. Lists of known names are decoded exactly."
  },
  {
   "property": "C35",
   "status": "partial",
   "theorems": [
    "handshake_partial",
    "handshake_refuted"
   ],
   "note": "Proved for versions 1 to 4, any cutting of the bytes, custom properties without the reserved prefix trax.; in version 1 the client takes only the color channel although others are announced, and reserved custom names shadow missing texts (refuted)."
  },
  {
   "property": "C36",
   "status": "partial",
   "theorems": [
    "session_partial",
    "single_object_session_partial",
    "rectangles_arrive",
    "polygons_arrive",
    "masks_arrive",
    "specials_arrive",
    "paths_arrive",
    "session_refuted"
   ],
   "note": "Sessions of any length, all versions, from the hello message on, for regions and images that survive their text form (C19-C26). Violated for masks without foreground: the server aborts."
  },
  {
   "property": "C37",
   "status": "partial",
   "theorems": [
    "at_most_one_quit",
    "terminate_says_why",
    "quit_received_ends",
    "termination_final_partial",
    "terminate_again_refuted"
   ],
   "note": "All call histories with any arguments and input. Violated only in that terminating again reports success."
  },
  {
   "property": "C38",
   "status": "partial",
   "theorems": [
    "wrong_count_partial",
    "single_object_calls_refused",
    "wrong_role_refuted",
    "reply_flag_refuted"
   ],
   "note": "Wrong reply counts and single-object calls in version 4 are refused; a wrong role ends the process through an assertion (refuted), and a multi-object reply below version 4 reads an uninitialised flag."
  },
  {
   "property": "C39",
   "status": "partial",
   "theorems": [
    "failed_send_partial",
    "failed_send_refuted"
   ],
   "note": "Holds when the images of all announced channels are given, or below version 4, or without objects; violated otherwise."
  },
  {
   "property": "C40",
   "status": "partial",
   "theorems": [
    "session_partial",
    "object_counts_refuted"
   ],
   "note": "Equal counts after any session without failing calls; violated after a failed initialize that is repeated."
  },
  {
   "property": "C41",
   "status": "partial",
   "theorems": [
    "object_lists_partial",
    "append_to_itself_refuted",
    "set_to_itself_refuted",
    "image_lists_partial",
    "clear_twice_refuted",
    "channel_count"
   ],
   "note": "Any sequence of operations on any number of lists; violated when a list is appended to itself or an entry is set to itself. Counting channels proved for non-negative sets."
  },
  {
   "property": "C42",
   "status": "partial",
   "theorems": [
    "ownership_partial",
    "self_assignment_refuted",
    "shared_self_assignment_refuted",
    "moved_from_copy_refuted",
    "list_constructor_refuted"
   ],
   "note": "Proved for every program of constructions, copies, moves, assignments, receptions and destructions except self-assignment, copies of moved-from objects and the constructors ObjectList(int)/ImageList(), for which the property is false in the code (refutations). The vectors of elements inside the list classes are not modelled."
  },
  {
   "property": "C43",
   "status": "partial",
   "theorems": [
    "dictionary_values_partial",
    "region_values_partial",
    "shared_clear_refuted",
    "shared_write_refuted",
    "set_point_depends_on_copies_refuted",
    "set_point_index_refuted"
   ],
   "note": "Proved for every program except Properties::clear and Region::write_mask_row on an object that shares its contents, for which the property is false in the code (refutations)."
  },
  {
   "property": "C44",
   "status": "partial",
   "theorems": [
    "log_complete_partial",
    "log_lines_partial",
    "log_overflow_refuted",
    "log_reset_refuted"
   ],
   "note": "Proved for lines shorter than 2^31-1 bytes: however the output is split into chunks and flushed, what is printed for each stream plus what waits in the buffer is the text with its lines cut at 255 bytes (the cut itself is intended, line_truncate); without flushes every piece printed is one whole line, so the streams do not mix. Refuted in full: a longer line overflows the counter (log_overflow_refuted) and an unfinished line waiting at a stop is dropped (log_reset_refuted). Not covered: threads and the process pipes."
  },
  {
   "property": "C45",
   "status": "partial",
   "theorems": [
    "command_words_partial",
    "cli_arguments_partial",
    "command_safe_partial",
    "command_crash_refuted",
    "command_drop_refuted",
    "cli_arguments_refuted"
   ],
   "note": "Proved: a command written from plain and quoted words is split into exactly those words; splitting any command ends and stays inside its buffers; the CLI passes its arguments on when they hold no quote, do not end with an apostrophe and have at most 1023 bytes. Refuted in full: commands ending in two spaces, empty or with an open quote crash (command_crash_refuted), the byte after a closing quote is dropped (command_drop_refuted), other arguments are passed on wrongly (cli_arguments_refuted)."
  },
  {
   "property": "C46",
   "status": "proved",
   "theorems": [
    "mutex_safe",
    "mutex_mutual_exclusion",
    "mutex_reentrant",
    "mutex_blocked",
    "mutex_free",
    "mutex_no_deadlock",
    "mutex_completes",
    "mutex_bounded_steps",
    "mutex_lock_scope",
    "mutex_lock_state"
   ],
   "note": "For every number of threads, every program of calls and every interleaving of the single accesses: no undefined behaviour, mutual exclusion, re-entrance, release exactly when left as often as entered, no deadlock for balanced programs, bounded number of steps; Lock leaves the mutex as it found it. Assumed: sequentially consistent memory (the code reads owner without the lock) and no overflow of the int counter."
  },
  {
   "property": "C47",
   "status": "partial",
   "theorems": [
    "deadline_exact_partial",
    "deadline_valid_partial",
    "deadline_refuted"
   ],
   "note": "Proved: the deadline denotes exactly now + timeout, and it is a valid timespec exactly when microseconds + timeout stay below two seconds and are not exactly one second. deadline_refuted: for timeouts of two seconds and more it is never valid. time_t overflow is not modelled."
  },
  {
   "property": "C48",
   "status": "partial",
   "theorems": [
    "evaluation_partial",
    "evaluation_ends_partial",
    "evaluation_groundtruth_partial",
    "evaluation_quit_refuted",
    "evaluation_init_refuted"
   ],
   "note": "For every tracker that gives a state for every frame the run ends with exactly one entry per frame, the right one. Violated: a tracker that quits at any frame makes the client throw before anything is saved; an initialization file shorter than the sequence is read out of bounds. Timings and overlap values are abstract."
  },
  {
   "property": "C49",
   "status": "partial",
   "theorems": [
    "documented_syntax_is_decoded_partial",
    "documented_header_is_decoded",
    "leading_escape_refuted"
   ],
   "note": "Proved for the whole grammar except unquoted arguments whose first character is escaped; for those the code is wrong (leading_escape_refuted)."
  },
  {
   "property": "C50",
   "status": "proved",
   "theorems": [
    "float_property_round_trip",
    "float_not_a_number_yields_default"
   ],
   "note": "C locale. The empty text leaves the result uninitialised (excluded by the statement)."
  },
  {
   "property": "C51",
   "status": "partial",
   "theorems": [
    "rectangle_window_partial",
    "rectangle_window_refuted",
    "legacy_rectangle_partial",
    "legacy_column_refuted"
   ],
   "note": "Proved for default rasterisation within 2^21 of the origin. Legacy rasterisation draws exactly the rectangle one row lower, and drops the last window column of rectangles that continue to the right (both refutations of the property)."
  },
  {
   "property": "C52",
   "status": "partial",
   "theorems": [
    "rectangle_mask_partial",
    "polygon_mask_refuted"
   ],
   "note": "Proved for integer rectangles including the way back; for polygons the code is wrong (y position taken from the right bound, last row and column missing)."
  },
  {
   "property": "C53",
   "status": "partial",
   "theorems": [
    "mask_point_partial",
    "mask_point_refuted"
   ],
   "note": "Proved for masks at non-negative positions; at negative positions truncation toward zero reads the wrong pixel or outside the data (refuted)."
  },
  {
   "property": "C54",
   "status": "partial",
   "theorems": [
    "memory_text_documented_partial",
    "path_image_round_trip",
    "url_image_partial",
    "data_text_documented_refuted",
    "documented_data_text_refuted"
   ],
   "note": "Image files are sent without the documented base64 marker, and the documented form is misread."
  },
  {
   "property": "C55",
   "status": "partial",
   "theorems": [
    "image_decode_safe_partial",
    "image_decode_safe_refuted",
    "memory_decode_always_overruns_refuted"
   ],
   "note": "Proved for all texts except image: texts and data: texts with an irregular base64 part, where it is violated."
  },
  {
   "property": "C56",
   "status": "partial",
   "theorems": [
    "hello_defaults_refuted",
    "handshake_partial"
   ],
   "note": "Violated: any hello message without trax.region makes the client use strtok(NULL); with the properties present see handshake_partial."
  },
  {
   "property": "C57",
   "status": "partial",
   "theorems": [
    "wait_returns_refuted",
    "client_wait_refuted",
    "server_wait_ends_partial",
    "single_wait_ends_partial",
    "client_wait_ends_partial"
   ],
   "note": "Violated after initialize messages (server loops for ever) and before the first reply (client reports special regions)."
  },
  {
   "property": "C58",
   "status": "proved",
   "theorems": [
    "trajectory_saved",
    "trajectory_lines",
    "trajectory_saved_again"
   ],
   "note": "What an entry stands for is region_arrives (C24 to C26). File system errors are not modelled."
  },
  {
   "property": "C59",
   "status": "partial",
   "theorems": [
    "frame_channels_partial",
    "load_channels_partial",
    "frame_depth_refuted",
    "frame_buffer_refuted",
    "frame_depth_only_refuted"
   ],
   "note": "Violated: main passes channels and formats to load_images in the wrong order. Proved when the two sets agree; the function itself is right."
  },
  {
   "property": "C60",
   "status": "partial",
   "theorems": [
    "timings_partial",
    "timings_complete_partial",
    "timings_refuted"
   ],
   "note": "Violated: frames skipped for want of an initialization get no timing. Proved when every frame has one, and the exact number in general."
  },
  {
   "property": "C61",
   "status": "partial",
   "theorems": [
    "png_size_partial",
    "gif_size_partial",
    "jpeg_size_partial",
    "jpeg_frame_refuted",
    "jpeg_buffer_refuted",
    "jpeg_exif_refuted",
    "size_unset_refuted"
   ],
   "note": "Violated: JPEG buffers and JPEG files without JFIF segment give a wrong size; differential JPEG frames give none; short buffers and URLs give an uninitialized one."
  },
  {
   "property": "C62",
   "status": "partial",
   "theorems": [
    "image_list_partial",
    "image_list_last_refuted",
    "image_list_crlf_refuted"
   ],
   "note": "Violated: a last line without line end is dropped, and CR stays in the path with CRLF files."
  },
  {
   "property": "C63",
   "status": "partial",
   "theorems": [
    "rectangle_point_inside",
    "rectangle_point_partial",
    "rectangle_point_refuted"
   ],
   "note": "Proved for all finite floats: points inside are reported inside; exact both ways when the right and bottom sides are representable. Violated otherwise: the rounded side can include points beyond the exact one."
  },
  {
   "property": "C64",
   "status": "partial",
   "theorems": [
    "polygon_point_partial",
    "convex_point_partial",
    "polygon_rows_outside",
    "polygon_first_vertex",
    "polygon_direction_partial",
    "polygon_point_refuted",
    "polygon_right_refuted"
   ],
   "note": "Proved: exact even-odd rule for integer vertices with sides up to 4096 and query x up to 4095, hence correctness on convex polygons and independence of direction; rows above or below all vertices and independence of the first vertex for all floats. Violated for larger integer coordinates (answer depends on direction) and for mixed magnitudes (a point right of all vertices reported inside)."
  },
  {
   "property": "C65",
   "status": "partial",
   "theorems": [
    "region_calls_values",
    "region_no_leak",
    "region_untouched",
    "region_point_last",
    "region_pixel_last",
    "region_wrong_type",
    "region_row_outside",
    "region_released_use",
    "region_index_refuted",
    "region_big_mask_refuted",
    "region_fresh_refuted"
   ],
   "note": "Proved for every sequence of proper calls on masks of at most 2^31-1 pixels. Refuted: the polygon index assertions use || and never fire, so every index outside is an access out of bounds; masks with more than 2^31-1 pixels can be created but row access and clone overflow; points and pixels of new regions are not initialised."
  },
  {
   "property": "C66",
   "status": "partial",
   "theorems": [
    "convex_window_partial",
    "convex_side_refuted",
    "convex_outside_refuted",
    "flat_side_refuted"
   ],
   "note": "Proved for strictly convex polygons with integer vertices up to 2^21 in any window. convex_side_refuted and convex_outside_refuted show that the bounds are sharp: pixels on a side may be missing, pixels outside may be set. With a vertex in the middle of a horizontal side (flat_side_refuted) pixels of that side are lost. Legacy rasterisation and other vertices are not covered."
  },
  {
   "property": "C67",
   "status": "partial",
   "theorems": [
    "child_streams",
    "explicit_streams_partial",
    "explicit_no_stderr_refuted",
    "explicit_inherited_refuted"
   ],
   "note": "Default streams proved for all tables and environments. Explicit streams are right if the client has an open error stream and neither TRAX_IN nor TRAX_OUT is in the environment passed on; both guards are needed, and the code fails without them."
  },
  {
   "property": "C68",
   "status": "partial",
   "theorems": [
    "alive_truthful_partial",
    "restart_forgets_refuted",
    "status_before_start_refuted"
   ],
   "note": "Proved for all histories after a start. Trying to start again loses the exit code, and the status before the first start is not initialised."
  },
  {
   "property": "C69",
   "status": "proved",
   "theorems": [
    "signals_to_child",
    "destroy_restores_partial"
   ],
   "note": "For all histories; destroy_restores_partial covers the signal sent on destruction."
  },
  {
   "property": "C70",
   "status": "partial",
   "theorems": [
    "destroy_restores_partial",
    "destroy_unstarted_refuted",
    "destroy_no_pipes_refuted",
    "start_again_leaks_refuted"
   ],
   "note": "Proved for all histories that begin with a successful start. Violated when the process was never started or the pipes ran out: descriptors that were never set are closed, or leaked."
  },
  {
   "property": "C71",
   "status": "partial",
   "theorems": [
    "end_of_output_refuted"
   ],
   "note": "Violated in every history: the client keeps the write ends of the child's pipes open until the process object is destroyed."
  },
  {
   "property": "C72",
   "status": "partial",
   "theorems": [
    "child_environment_partial",
    "child_variable_partial",
    "duplicate_variable_refuted"
   ],
   "note": "Proved for environments without duplicate names; with duplicates the child gets the last value while the client sees the first."
  },
  {
   "property": "C73",
   "status": "partial",
   "theorems": [
    "answered_in_time_partial",
    "timed_out_partial",
    "started_in_time_partial",
    "start_timed_out_partial",
    "long_timeout_refuted"
   ],
   "note": "Exact in turns of the watchdog, for turns that happen as a whole. Missing: turns that interleave with the calls inside start_process and the unsynchronised counter; the length of a turn (at least 100 ms, plus half a second and more while another tracker is being stopped). Violated for timeouts above 214748364 s (long_timeout_refuted)."
  },
  {
   "property": "C74",
   "status": "partial",
   "theorems": [
    "requests_in_order_partial",
    "frame_after_reset_refuted",
    "tracking_before_initialize_refuted",
    "unsupported_version_refuted"
   ],
   "note": "Proved for histories without query and reset. Violated after reset (frame_after_reset_refuted), after query (tracking_before_initialize_refuted) and for unsupported versions (unsupported_version_refuted)."
  },
  {
   "property": "C75",
   "status": "partial",
   "theorems": [
    "polite_stop_partial",
    "reset_quits_first"
   ],
   "note": "All four cases proved for destruction in every reachable ready state, and that a restart sends quit first. Missing: that quit precedes the signals inside one stop is by construction of the model; SIGKILL is sent twice to a process that is not seen dead within 100 ms."
  },
  {
   "property": "C76",
   "status": "partial",
   "theorems": [
    "histories_defined_partial",
    "descriptors_returned_partial",
    "crash_leaks_refuted",
    "introduce_and_exit_refuted",
    "no_pipes_refuted"
   ],
   "note": "Proved for histories whose first initialisation precedes what needs one, with three pipes available and no crash between introduction and return; descriptors return if the watchdog had a turn before each launch. Violated otherwise (the three refuted theorems)."
  },
  {
   "property": "C77",
   "status": "proved",
   "theorems": [
    "crash_noticed_at_once",
    "failed_request_not_ready",
    "callback_stops_tracker"
   ],
   "note": "Turns of the watchdog happen as a whole."
  },
  {
   "property": "C78",
   "status": "proved",
   "theorems": [
    "no_deadlock"
   ],
   "note": "For the interleaving model in Threads.v: sequentially consistent memory; calls that wait for the tracker end sometime; callbacks do not call the tracker object."
  },
  {
   "property": "C79",
   "status": "proved",
   "theorems": [
    "destruction_ends",
    "destruction_last"
   ],
   "note": "Same model as C78."
  },
  {
   "property": "C80",
   "status": "partial",
   "theorems": [
    "protected_access_partial",
    "protected_sections_partial",
    "protected_access_refuted",
    "protected_access_logger_refuted",
    "protected_access_watchdog_refuted"
   ],
   "note": "Violated. Only three kinds of accesses can go wrong, all made without process_state_mutex, and each of them does: start_process uses the new process while the watchdog may delete it; the logger asks for the error stream after it has released the mutex; start_process deletes the client without the mutex while the watchdog may use it."
  },
  {
   "property": "C81",
   "status": "partial",
   "theorems": [
    "idle_tracker_partial",
    "idle_tracker_refuted"
   ],
   "note": "Violated: watchdog_timeout-- is not atomic, an answer that arrives between its two halves leaves the timeout armed and a living tracker nobody waits for is stopped. Proved: with the timeout unarmed at the beginning of a turn, the watchdog stops a tracker only if it died or a callback asks."
  },
  {
   "property": "C82",
   "status": "partial",
   "theorems": [
    "opencv_image_partial",
    "opencv_gray_refuted",
    "opencv_gray_image_refuted"
   ],
   "note": "Proved for colour matrices of any layout. Violated for gray ones: BGR2RGB is applied to one channel, which OpenCV refuses with an exception."
  },
  {
   "property": "C83",
   "status": "partial",
   "theorems": [
    "opencv_mask_partial",
    "opencv_mask_round_trip_partial",
    "opencv_mask_refuted",
    "opencv_mask_outside_refuted",
    "opencv_submatrix_refuted"
   ],
   "note": "Proved for masks at the origin and continuous matrices. Violated: rows are written with the width of the mask instead of that of the matrix, so masks with x > 0 are garbled; the rest of the matrix is not initialised; masks left of or above the image are written out of bounds; parts of matrices are read as if they were whole."
  },
  {
   "property": "C84",
   "status": "partial",
   "theorems": [
    "opencv_rect_partial",
    "opencv_rounding_partial",
    "opencv_points_partial",
    "opencv_rect_refuted"
   ],
   "note": "Proved up to 2^24 and for at least three points; violated beyond. Rounding proved for all rectangles that fit an int; a special region gives uninitialised numbers."
  },
  {
   "property": "C85",
   "status": "partial",
   "theorems": [
    "own_port_partial",
    "last_port_refuted",
    "ten_ports_partial",
    "ports_returned_partial",
    "option_leak_refuted",
    "descriptor_zero_refuted"
   ],
   "note": "Violated for port 65535 (9089 is told), when setsockopt fails (the socket is never closed) and when standard input is closed (a socket with descriptor 0 counts as a failure and is never closed). Proved otherwise."
  },
  {
   "property": "C86",
   "status": "partial",
   "theorems": [
    "tracker_finds_port_partial",
    "default_streams_partial",
    "explicit_numbers_partial",
    "inherited_socket_refuted",
    "inherited_streams_refuted"
   ],
   "note": "Violated for clients that have TRAX_SOCKET, TRAX_IN or TRAX_OUT in their own environment and use streams, and for port 65535. Proved otherwise."
  },
  {
   "property": "C87",
   "status": "partial",
   "theorems": [
    "connects_partial",
    "nobody_listens_refuted",
    "connect_option_refuted",
    "no_socket_refuted"
   ],
   "note": "Violated: connecting is tried for ever, with a closed descriptor when setsockopt failed; a failing socket() leads to a null pointer. What is proved is that it ends exactly when an attempt succeeds."
  },
  {
   "property": "C88",
   "status": "partial",
   "theorems": [
    "waits_for_tracker_partial",
    "silent_tracker_partial",
    "negative_timeout_partial",
    "own_tracker_partial",
    "zero_timeout_refuted",
    "stale_connection_refuted",
    "interrupted_refuted"
   ],
   "note": "Violated: a timeout of zero fails at once, a late connection of an earlier process is taken for that of the next one, a signal turns the timeout off. Proved for histories without late connections and signals."
  },
  {
   "property": "C89",
   "status": "partial",
   "theorems": [
    "matlab_image_array_partial",
    "matlab_image_memory_partial",
    "matlab_image_path_partial",
    "matlab_image_url_refuted",
    "matlab_image_empty_refuted",
    "matlab_image_buffer_refuted"
   ],
   "note": "Proved: arrays and images in memory of every size and format, and paths, go both ways with the same pixels. Violated by the code: an image given by its URL and an empty array end the process (assertions), an image in a buffer is shown as a structure that is not accepted back."
  },
  {
   "property": "C90",
   "status": "partial",
   "theorems": [
    "matlab_region_partial",
    "matlab_mask_partial",
    "matlab_mask_shown_partial",
    "matlab_mask_left_refuted",
    "matlab_mask_above_refuted",
    "matlab_special_refuted",
    "matlab_rows_refuted",
    "matlab_no_rows_refuted"
   ],
   "note": "Proved: rectangles, polygons, masks at the origin go both ways; masks with offsets that are not negative are shown at their places (given back they begin at the origin). Violated by the code: a mask left of the image is written before the array, one above it is shown at wrong places; special codes are not accepted back; a matrix with two rows passes for a rectangle; one without rows is read beyond its end."
  },
  {
   "property": "C91",
   "status": "partial",
   "theorems": [
    "matlab_cell_partial",
    "matlab_cell_back_partial",
    "matlab_cell_back_refuted",
    "matlab_cell_column_refuted",
    "matlab_struct_partial",
    "matlab_struct_field_partial",
    "matlab_struct_refuted"
   ],
   "note": "Proved: what is shown, in both forms; structures with safe names and a single property as a cell array come back. Violated by the code: cell arrays with any other number of rows are refused, one with a single column is read beyond its end, other names are changed in structures and can become equal."
  },
  {
   "property": "C92",
   "status": "proved",
   "theorems": [
    "matlab_names",
    "matlab_name",
    "matlab_unknown_name",
    "matlab_formats_shown",
    "matlab_image_list",
    "matlab_single_image",
    "matlab_wrong_count",
    "matlab_single_wrong_count"
   ],
   "note": "The empty set of formats cannot be expressed (an error, stated in matlab_formats_shown). Lists of images are proved for paths and images in memory (C89)."
  },
  {
   "property": "C93",
   "status": "partial",
   "theorems": [
    "matlab_setup_partial",
    "matlab_reserved_partial",
    "matlab_unpaired_refuted",
    "matlab_wait_partial",
    "matlab_wait_refuted",
    "matlab_quit_partial",
    "matlab_quit_refuted"
   ],
   "note": "Proved: pairs of names and values, reserved names. Violated by the code: a name without value, and quit without reason, read an argument that was not given. Not stated: the channels argument among the pairs, calls before setup."
  },
  {
   "property": "C94",
   "status": "partial",
   "theorems": [
    "lists_send_partial",
    "copy_sends_other_elements_refuted",
    "copy_sends_freed_element_refuted",
    "copy_of_new_list_refuted",
    "unset_object_sent_refuted"
   ],
   "note": "Proved for all programs that set positions only in lists sharing with no other, do not copy lists made by ObjectList(n) or ImageList(), and receive lists with missing elements only into lists that show nothing; empty positions are sent as nothing or, in object lists, as the default region. Outside this the code violates the property: copies share the C structure but have their own vectors, lists made by a constructor are not counted, and unset positions of ObjectList(n) are sent as regions."
  },
  {
   "property": "C95",
   "status": "partial",
   "theorems": [
    "lists_show_partial",
    "old_image_shown_refuted",
    "moved_image_list_refuted"
   ],
   "note": "Proved for all programs that run without undefined behaviour and receive lists with missing elements only into lists that show nothing. Otherwise violated: ImageList::wrap keeps the old image of a channel that is missing in the received list; an image list that was moved from has no vector to receive into."
  },
  {
   "property": "C96",
   "status": "partial",
   "theorems": [
    "python_text_encoded",
    "python_text_decoded",
    "python_properties_partial",
    "python_properties_copied_partial",
    "python_properties_received",
    "nul_in_key_refuted",
    "item_of_properties_refuted",
    "properties_of_properties_refuted",
    "undecodable_property_dropped_refuted"
   ],
   "note": "Proved for texts without NUL and lone surrogates. Violated: a text is cut at a NUL, the operator [] fails for every key, Properties of Properties fail, and dict drops properties that are not UTF-8."
  },
  {
   "property": "C97",
   "status": "partial",
   "theorems": [
    "log_of_sent_message_partial",
    "log_of_received_message_partial",
    "log_reads_beyond_character_refuted",
    "received_character_not_logged_refuted"
   ],
   "note": "Violated for received messages: the logger is given the address of a single character without its length, so it reads beyond it; and parts of a multi-byte character are dropped."
  },
  {
   "property": "C98",
   "status": "partial",
   "theorems": [
    "python_memory_image_partial",
    "python_image_refused",
    "python_buffer_image_partial",
    "python_path_partial",
    "python_url_partial",
    "four_dimensions_refuted",
    "no_rows_refuted",
    "other_elements_refuted",
    "other_data_refuted",
    "buffer_description_refuted"
   ],
   "note": "Proved for non-empty arrays of unsigned integers in the three pixel formats with any strides, JPEG (JFIF) and PNG files, texts without NUL. Violated: four dimensions, arrays without rows, other element types, other data, and the description of image files."
  },
  {
   "property": "C99",
   "status": "partial",
   "theorems": [
    "python_mask_partial",
    "python_mask_type",
    "transposed_mask_refuted",
    "flipped_mask_refuted",
    "empty_mask_refuted",
    "negative_offset_refuted",
    "mask_get_refuted"
   ],
   "note": "Proved for non-empty arrays stored row by row without gaps. Violated for other strides (wrong pixels, memory outside of the array), empty arrays, negative offsets with normalize, and get."
  },
  {
   "property": "C100",
   "status": "partial",
   "theorems": [
    "python_handshake_partial",
    "python_unknown_names",
    "python_special_refuted",
    "python_multiobject_refuted",
    "python_accent_refuted",
    "python_no_channel_refuted",
    "python_no_log_refuted"
   ],
   "note": "Proved for 7-bit texts, at least one channel and known names. Violated by the code: the special format is never announced, a custom property called multiobject is replaced, a name with an accent is undefined behaviour in the client, an empty channel list aborts the tracker, a client without a log cannot be made."
  },
  {
   "property": "C101",
   "status": "partial",
   "theorems": [
    "python_session_partial",
    "python_server_quit",
    "python_client_quit_partial",
    "python_client_reason_refuted",
    "python_status_properties_refuted",
    "python_frame_default_refuted"
   ],
   "note": "Proved for every session with sendable arguments, and for quitting by the tracker. Violated by the code: properties given to status are dropped, the reason of a client that quits does not reach the tracker, frame raises TypeError with its default for objects."
  },
  {
   "property": "C102",
   "status": "partial",
   "theorems": [
    "client_memory_partial",
    "server_memory_partial",
    "memory_reset_refuted",
    "memory_late_wait_refuted",
    "memory_greeting_refuted",
    "memory_polygon_refuted",
    "memory_empty_text_refuted"
   ],
   "note": "Proved for all calls and messages apart from: messages that ask for a new start and waits after the end (two blocks lost each), a client that is not greeted (stream lost), polygons converted to masks (one block lost), empty region texts and hello messages without their texts (undefined behaviour); these are the refuted theorems."
  },
  {
   "property": "C103",
   "status": "partial",
   "theorems": [
    "python_client_memory_partial",
    "python_server_memory_partial",
    "python_get_refuted",
    "python_memory_refuted",
    "python_logger_refuted",
    "python_greeting_refuted"
   ],
   "note": "Holds for all programs without Properties.get, reasons of the tracker, quit between an object and its frame, and loggers without quit. The code leaks a block per Properties.get, the object list on quit with pending objects, the metadata structure on a bad key, the handle of an interrupted constructor, the stream of a Client that is not greeted, and calls a freed logger when a session is collected without quit."
  },
  {
   "property": "C104",
   "status": "partial",
   "theorems": [
    "client_options_spec",
    "client_options_safe",
    "test_options_partial",
    "test_options_safe_partial",
    "player_options_partial",
    "player_options_safe",
    "environment_map",
    "test_rounds_refuted",
    "player_window_refuted",
    "client_manual_refuted"
   ],
   "note": "Proved for traxclient with every documented option, and for traxtest and traxplayer without one option each. Refuted there: traxtest -I, described with a number of rounds, is declared without argument, so that atoi is called with a null pointer; traxplayer rejects -g of its own help; the command line of docs/support.rst uses -g and -o, which traxclient rejects. The getopt of the repository is modelled, not the one of the C library."
  },
  {
   "property": "C105",
   "status": "partial",
   "theorems": [
    "test_verdict_partial",
    "test_sends_partial",
    "test_picture_refuted"
   ],
   "note": "Verdict and script proved for all trackers on whose connection a failed wait is final (C57, C77). Refuted: for trackers that take images in memory only a third of the bytes of the picture are set."
  },
  {
   "property": "C106",
   "status": "partial",
   "theorems": [
    "player_selection_partial",
    "player_refuted",
    "player_cancel_refuted",
    "player_direction_refuted"
   ],
   "note": "The selection itself is proved. Refuted: the player asks whether the tracker is ready before anything starts it, so no region ever reaches a tracker; Q clears the region but does not end the selection; dragging to the left or upwards gives negative sizes."
  },
  {
   "property": "C107",
   "status": "partial",
   "theorems": [
    "send_errors_partial",
    "success_clears_partial",
    "number_text_refuted",
    "stale_error_refuted",
    "silent_failure_refuted"
   ],
   "note": "Sending calls fail exactly for one of the named reasons and the text names it, if no polygon is empty; after success no error is left, except that a client's wait never clears one. Violated: a text with a number passes a va_list as an int to the variadic buffer_append (undefined); a stale error survives a successful client wait; end of stream and replies with empty polygons fail without a text."
  },
  {
   "property": "C108",
   "status": "partial",
   "theorems": [
    "client_options_partial",
    "client_unknown_option",
    "client_timeout_refuted"
   ],
   "note": "Proved for option values of the right kind. A timeout that is infinite or not a number is converted to int unchecked, which is undefined behaviour."
  },
  {
   "property": "C109",
   "status": "partial",
   "theorems": [
    "client_session_partial",
    "client_order_holds",
    "client_stale_properties_refuted"
   ],
   "note": "Proved for sessions in which no answer lacks a property that an earlier answer had. Without that the callback is shown properties of earlier answers, because the client adds the properties of each answer to the same set. The order of calls and requests is proved for every session."
  },
  {
   "property": "C110",
   "status": "partial",
   "theorems": [
    "cpp_session_partial",
    "cpp_single_session_partial",
    "cpp_reply_properties_dropped",
    "cpp_reply_properties_refuted"
   ],
   "note": "Proved for both server classes apart from the properties of replies with ServerMOT (the class called Server unless TRAX_LEGACY_SINGLE is set): its reply calls trax_properties_append with source and drain swapped, so the properties are never sent (refuted). One object, fresh variables for every wait."
  },
  {
   "property": "C111",
   "status": "partial",
   "theorems": [
    "matlab_closed_partial",
    "matlab_unknown_partial",
    "matlab_quit_partial",
    "matlab_client_quit_partial",
    "matlab_dead_partial",
    "matlab_calls_partial",
    "matlab_second_setup_refuted",
    "matlab_state_refuted"
   ],
   "note": "Holds except that a second setup loses the first connection and that the documented operation state does not exist (the code calls it status); both are refuted. quit without a reason is undefined behaviour (C93)."
  },
  {
   "property": "C112",
   "status": "partial",
   "theorems": [
    "matlab_session_partial",
    "matlab_state_properties_refuted"
   ],
   "note": "Everything arrives except the properties given to status, which are never sent (refuted; the cause is C110). Colour images only (setup without channels); frames without new objects; masks with non-negative offsets."
  },
  {
   "property": "C113",
   "status": "partial",
   "theorems": [
    "cpp_metadata_partial",
    "cpp_client_metadata_partial",
    "cpp_metadata_unset",
    "cpp_metadata_forgets",
    "cpp_metadata_custom_refuted"
   ],
   "note": "Proved for the metadata object itself and, on the client, for formats, channels and texts. Violated for custom properties: Handle::metadata() makes a new object without them (src/traxpp.cpp:134-139), so a C++ client never sees the custom properties the tracker announced."
  },
  {
   "property": "C114",
   "status": "partial",
   "theorems": [
    "cpp_dictionary_partial",
    "cpp_dictionary_listing",
    "cpp_dictionary_to_map",
    "cpp_dictionary_map_round_trip",
    "cpp_double_default_partial",
    "cpp_double_default_refuted",
    "cpp_nul_text_refuted"
   ],
   "note": "Proved for texts without NUL, ints, finite floats and defaults that are floats. Violated: get with a double default returns it rounded to a float (0.1), and a std::string is cut at a NUL."
  },
  {
   "property": "C115",
   "status": "partial",
   "theorems": [
    "static_tracker_partial",
    "static_tracker_leak_refuted",
    "static_tracker_time_refuted"
   ],
   "note": "Proved for the version for several objects, for regions within the guards of C25 and C26. Violated for memory: the dictionary made for each request is released only for the last one; an empty property time_wait makes the tracker read an uninitialised number."
  },
  {
   "property": "C116",
   "status": "partial",
   "theorems": [
    "chatter_unnoticed_partial",
    "loud_session_partial",
    "loud_single_session_partial",
    "unfinished_line_refuted",
    "foreign_letter_refuted"
   ],
   "note": "Proved for complete lines of 7-bit characters that do not begin with the prefix, between messages within the guard of C01. False for text left without an end of line (the next message is lost, as the library does not begin a new line although the protocol document says so) and for bytes above 127 (taken for the end of the stream: the wait reports TRAX_HELLO with invented regions)."
  },
  {
   "property": "C117",
   "status": "partial",
   "theorems": [
    "python_rectangle_partial",
    "python_rectangle_refused",
    "python_special_partial",
    "special_code_refuted",
    "python_polygon_partial",
    "python_polygon_refused",
    "polygon_leak_refuted",
    "python_wrap",
    "single_precision_refuted",
    "infinite_refuted",
    "iterator_refuted"
   ],
   "note": "Proved for ints and finite floats up to 2^126 and lists of good points: rectangles, polygons (size, index, loop), special codes in int range, classes. Violated: numbers beyond single precision are rounded or become infinite silently, codes wrap modulo 2^32, a bad tuple leaks the native polygon, the iterator of a polygon is not iterable."
  },
  {
   "property": "C118",
   "status": "partial",
   "theorems": [
    "dictionary_memory_partial",
    "dictionary_create_refuted",
    "dictionary_clear_refuted",
    "dictionary_get_refuted"
   ],
   "note": "Proved for every history and every pattern of failing allocations once the first block of the dictionary was allocated. Violated: trax_properties_create does not check its first malloc (crash); after a clear without memory the dictionary stores nothing any more, silently; trax_properties_get reports a present property as absent when there is no memory for the copy. Appending a dictionary to itself is not covered (the source is another dictionary)."
  },
  {
   "property": "C119",
   "status": "partial",
   "theorems": [
    "stationary_evaluation_partial",
    "stationary_unfailing_partial",
    "stationary_absent_refuted",
    "stationary_image_refuted"
   ],
   "note": "Proved end to end, from the texts of the two input files to the text of the output file, for finite regions and lists with an image for every channel the tracker wants. Violated by the code: ground truth that marks an absent object (a code, or nan coordinates) aborts the client; one missing image discards the whole trajectory. The time limit of the watchdog is not part of this model."
  },
  {
   "property": "C120",
   "status": "partial",
   "theorems": [
    "region_apis_values",
    "region_apis_left_partial",
    "region_apis_no_leak",
    "region_apis_blocks",
    "region_apis_leak_refuted"
   ],
   "note": "Values and memory of every sequence of region calls are proved; the code violates the last part: each conversion of a polygon to a mask leaves the container it allocated first, which nobody can release (region_apis_leak_refuted). Decoded masks are assumed to have at least one pixel; allocations succeed."
  },
  {
   "property": "C121",
   "status": "partial",
   "theorems": [
    "negotiated_session_partial",
    "negotiated_single_session_partial",
    "polygon_to_mask_refuted",
    "polygon_to_mask_abort_refuted",
    "polygon_to_rectangle_refuted",
    "announced_format_refuted",
    "no_format_refuted"
   ],
   "note": "Proved for sessions in all protocol versions with any announced formats; regions to be converted have integer coordinates. Violated by the code: polygons for trackers with masks arrive at the wrong place or make the tracker abort; polygons left of or above the origin get too large a rectangle; polygons with two points arrive as rectangles; special regions or an empty set of formats make the client abort."
  },
  {
   "property": "C122",
   "status": "partial",
   "theorems": [
    "threshold_partial",
    "judge_partial",
    "judge_exact_partial",
    "no_threshold_partial",
    "evaluation_judged_partial",
    "judge_outside_refuted",
    "judge_first_image_refuted",
    "judge_unknown_image_refuted",
    "judge_thin_refuted",
    "judge_absent_refuted"
   ],
   "note": "Proved for masks and integer rectangles whose visible boxes are at least two pixels wide and high, up to the rounding of the quotient (2^-25), exactly for thresholds p/2^k; the visible pixels include one column and one row outside of the image. Violated otherwise: bounds off by one and taken from the image at which the tracker was started; unknown image formats; regions of one row; codes for absent objects are undefined behaviour. Legacy rasterisation and polygons are not covered."
  },
  {
   "property": "C123",
   "status": "partial",
   "theorems": [
    "stationary_judged_partial",
    "stationary_flat_refuted"
   ],
   "note": "Composition of C25, C115, C119 and C122, from the texts of the input files to the text of the output file. Masks and rectangles with integer sides that are at least two pixels wide and high, without image bounds, default rasterisation. Violated for flat objects (one row): the overlap is 0 although half of the pixels are common."
  },
  {
   "property": "C124",
   "status": "partial",
   "theorems": [
    "overlap_symmetric",
    "overlap_range_partial",
    "overlap_self_partial",
    "overlap_number_refuted",
    "overlap_self_refuted"
   ],
   "note": "Symmetry holds whenever a result is returned. Range and self-overlap hold unless no pixel is counted (then the result is NaN: overlap_number_refuted) or the box has no extent inside the bounds (then 0: overlap_self_refuted)."
  },
  {
   "property": "C125",
   "status": "partial",
   "theorems": [
    "interactive_loop_partial",
    "interactive_never_replies_refuted",
    "interactive_file_refuted",
    "camshift_late_refuted"
   ],
   "note": "Proved for the loop of the interactive tracker when set up with rectangles and files among its formats (integer rectangles up to 2^20, path images). Violated: interactive.cpp and camshift.cpp (and the tutorials' ncc tracker) pass the image formats where the region formats belong and vice versa, so that the program never answers any client; camshift.cpp answers the request to initialize twice, so every later answer is one request late. Missing: images in memory or buffers, fractional rectangles."
  },
  {
   "property": "C126",
   "status": "partial",
   "theorems": [
    "python_static_partial",
    "python_static_time_refuted"
   ],
   "note": "Proved for rectangles with finite coordinates, 7-bit properties and times that are written as decimal numbers, with a Python client; a time with a character that no number has ends the tracker with ValueError and the client gets a reason instead of an answer (refuted)."
  },
  {
   "property": "C127",
   "status": "partial",
   "theorems": [
    "matlab_static_partial"
   ],
   "note": "Matlab's pause and str2double only delay the tracker and are not modelled. Requests outside the announced formats and failing connections are excluded."
  },
  {
   "property": "C128",
   "status": "partial",
   "theorems": [
    "cut_message_partial",
    "cut_message_refuted",
    "cut_answer_partial",
    "cut_answer_refuted",
    "cut_request_partial",
    "cut_request_refuted"
   ],
   "note": "Violated: at the end of the stream the reader completes the message with what has arrived, so a message cut off after its type is received with only the arguments and properties that arrived in full (every message with arguments has such a cut; a client takes a state message cut before its properties for a whole one; a server for several objects never returns when an initialize message is cut). Proved: everything before is received as sent, only whole arguments and properties are ever handed over, exactly those that arrived, cuts in the type or between a backslash and its character are errors; a client never gets another region than the one sent, and a single-object server never another image or region."
  },
  {
   "property": "C129",
   "status": "partial",
   "theorems": [
    "bad_tracker_partial",
    "bad_tracker_smallest_refuted",
    "bad_tracker_large_refuted",
    "bad_tracker_empty_refuted"
   ],
   "note": "Proved for every break_time that is an integer text in range except INT_MIN; violated: break_time=-2147483648 overflows in the countdown, a number beyond int is converted (undefined), and an empty value is read from an uninitialised variable. Rectangles with finite coordinates; regions the client has to convert are not covered."
  },
  {
   "property": "C130",
   "status": "partial",
   "theorems": [
    "hostile_client_partial",
    "hostile_single_partial",
    "hostile_multi_partial",
    "hostile_multi_returns_partial",
    "hostile_setup_partial",
    "hostile_state_refuted",
    "hostile_mask_refuted",
    "hostile_image_refuted",
    "hostile_hello_refuted",
    "hostile_forever_refuted"
   ],
   "note": "Proved for all byte streams: every wait and the client's setup return unless a message came in that is on a small explicit list (harmful region texts of C27, masks without pixels, raw images, data images with an empty or irregular body, introductions without formats or channels or with an empty or unrepresentable number). The full property is violated by the code: every such region text ends a waiting client, and every such introduction ends a connecting one, so for these the list is exact; the others are shown by concrete messages. The list is not claimed exact for images and for servers. The server's setup reads nothing and is not covered here. A server for several objects returns after finitely many messages, unless its input ends after an initialize, hello or state message, and then it waits for ever (hostile_forever_refuted)."
  },
  {
   "property": "C131",
   "status": "partial",
   "theorems": [
    "tutorial_client_partial",
    "tutorial_restart_partial",
    "tutorial_termination_refuted",
    "tutorial_exception_refuted",
    "tutorial_last_state_refuted"
   ],
   "note": "Proved for trackers that start and answer in time, for trackers that fail at the picture before a new beginning, and that no behaviour of a tracker leads to undefined behaviour. Refuted for the end of a session: the branch for a tracker that has requested termination is never taken, the next picture throws an exception that is not caught, and a missing last state goes unnoticed."
  },
  {
   "property": "C132",
   "status": "partial",
   "theorems": [
    "ncc_sequence_partial",
    "ncc_sequence_refuted",
    "ncc_rectangle_partial",
    "ncc_rectangle_refuted",
    "ncc_init_partial",
    "ncc_track_partial",
    "ncc_border_refuted",
    "ncc_clipped_refuted",
    "ncc_drift_refuted",
    "ncc_float_init_partial",
    "ncc_float_track_partial",
    "ncc_float_exact_partial",
    "ncc_float_range_refuted"
   ],
   "note": "Proved for lists whose lines all end, regions with four numbers, coordinates up to 2^20 and objects that do not touch the right or lower border of the first picture, in IEEE floats. Refuted: a list whose last line has no end is read for ever, a missing number is replaced by the one before, an object at the right border loses a column, one over the left border is moved, floats lose pixels beyond 2^24. Pixels and the matching itself are not modelled."
  },
  {
   "property": "C133",
   "status": "partial",
   "theorems": [
    "debug_release_partial",
    "debug_off_partial",
    "debug_on_partial",
    "debug_message_partial",
    "debug_file_name_partial",
    "debug_crash_refuted"
   ],
   "note": "Proved for builds without messages, for messages that are off, and for messages that have a stream. Refuted: messages that are on because of the build or of TRAX_DEBUG have no stream until a program enables them or sets one, and then a client that gets a wrong introduction has undefined behaviour."
  },
  {
   "property": "C134",
   "status": "partial",
   "theorems": [
    "timer_elapsed_partial",
    "timer_file_partial",
    "timer_file_digits_partial",
    "timer_unset_refuted",
    "timer_file_refuted"
   ],
   "note": "Proved for an initialized timer on Linux, durations up to 272 years; the file is exact to the microsecond for durations below a second and right to one part in 200000 below eleven days. Refuted: without timer_init the time is infinite, and the file has six significant digits only, so above a second microseconds are lost. The Windows and macOS clocks are not modelled."
  },
  {
   "property": "C135",
   "status": "partial",
   "theorems": [
    "matlab_rectangle_partial",
    "matlab_polygon_partial",
    "matlab_track_partial",
    "matlab_wide_refuted",
    "matlab_tall_refuted",
    "matlab_edge_refuted",
    "matlab_border_refuted",
    "matlab_outside_refuted"
   ],
   "note": "Proved for objects a pixel away from the border and smaller than the picture without its outermost pixels, and pictures of one size, with pictures too small for the object among them, which are answered with the last place. Refuted: an object as wide or as high as the picture makes the tracker fail, the last place of the searched part is never found, an object at the left border loses a column, one outside the picture is accepted with a negative width. Pixels and normxcorr2 are not modelled."
  },
  {
   "property": "C136",
   "status": "partial",
   "theorems": [
    "log_file_partial",
    "log_file_crash_partial",
    "log_file_received_partial",
    "log_file_none",
    "log_only_sent",
    "log_of_broken_stream",
    "log_file_of_failing_stream",
    "log_file_full_refuted",
    "log_gap_refuted"
   ],
   "note": "The file has the whole exchange if the stream takes all that is written and the disk has room. On a stream that fails, the log and the file never have a byte that was not sent, and on one that stays broken the log is the beginning of what was sent. Refuted: a full disk is not reported, and a momentary error leaves a gap in the message and in the log."
  }
 ]
}