{"claims": [
{"property": "C01", "status": "proved", "theorems": ["C01_tag_name_encoding", "C01_encoding_injective", "C01_known_tag_instance"], "note": "grammar of tag names as a tree with its own printer; encoding exact and injective; known tags addressed by instance"},
{"property": "C02", "status": "partial", "theorems": ["C02_server_decodes_path_partial", "C02_server_decodes_path_refuted", "C02_element_count_40_refuted", "C02_decoding_terminates"], "note": "proved for subscripts below 65536 when the byte after the path does not look like a path segment; refuted beyond: index 65536 is dropped, an element count whose low byte is 0x28/0x29/0x91 is swallowed"},
{"property": "C03", "status": "partial", "theorems": ["C03_malformed_rejected_refuted", "C03_names_never_error_partial"], "note": "refuted: malformed names are never rejected; proved: encoding never returns an error and panics only for a part ending in ] without ["},
{"property": "C04", "status": "proved", "theorems": ["C04_cache_transparent"], "note": "simulation with the cacheless client over any history"},
{"property": "C05", "status": "partial", "theorems": ["C05_path_words_partial", "C05_path_words_refuted"], "note": "even length always; word count byte exact up to 510 bytes, wraps beyond (refuted)"},
{"property": "C06", "status": "partial", "theorems": ["C06_bit_reads_partial", "C06_sint_bits_refuted", "C06_missing_bit_refuted", "C06_bit_above_31_refuted"], "note": "Holds for every integer type but SINT and ULINT, bits 0..31 (USINT and BYTE included). Refuted: SINT bits always fail, a bit the type lacks reads as false without error, bits 32..63 are encoded as a member name."},
{"property": "C07", "status": "partial", "theorems": ["C07_route_bytes", "C07_bad_element_is_error", "C07_never_panics_refuted", "C07_panics_only_on_leading_address_partial"], "note": "bytes exact for every decorated route; errors for bad elements; never-panics refuted (leading dotted address), with the exact panic condition proved"},
{"property": "C08", "status": "proved", "theorems": ["C08_builder_concatenates", "C08_builder_keeps_first_error"], "note": "any chain of calls"},
{"property": "C09", "status": "partial", "theorems": ["C09_class_segment", "C09_instance_segment", "C09_attribute_segment", "C09_element_segment_partial", "C09_width_announced", "C09_readers_never_panic", "C09_element_segment_refuted", "C09_address_port_len_refuted"], "note": "class, instance, attribute in full; elements up to 65534; refuted for element 65535 (length) and >= 65536 (type byte); address and port lengths refuted"},
{"property": "C10", "status": "proved", "theorems": ["C10_items_round_trip", "C10_written_items", "C10_oversize_item_refuted"], "note": "every list within the 16-bit fields; beyond them the length wraps (witness)"},
{"property": "C11", "status": "proved", "theorems": ["C11_item_parsing_safe"], "note": "arbitrary bytes"},
{"property": "C12", "status": "proved", "theorems": ["C12_cursor_exact", "C12_results_determined"], "note": "any sequence of cursor operations"},
{"property": "C13", "status": "partial", "theorems": ["C13_string_lists_truthful", "C13_string_truthful_partial", "C13_string_truthful_refuted"], "note": "string lists always; single strings up to 84 characters; refuted beyond (length field exceeds the slot)"},
{"property": "C14", "status": "proved", "theorems": ["C14_round_trip", "C14_injective"], "note": "All struct types over bools, numbers, arrays (of anything) and structs; any bytes may follow."},
{"property": "C15", "status": "partial", "theorems": ["C15_layout_partial", "C15_disjoint", "C15_struct_array_refuted", "C15_bool_in_struct_array_refuted"], "note": "Proved for all structs whose arrays hold numbers or bools; refuted for arrays of structs (later fields misaligned, bools one byte each)."},
{"property": "C16", "status": "partial", "theorems": ["C16_type_encode_partial", "C16_array_between_bools_refuted", "C16_bool_array_refuted", "C16_empty_array_refuted"], "note": "Proved for structs without bool arrays, nopack bools or arrays directly behind an incomplete byte of bools; refuted for those."},
{"property": "C17", "status": "partial", "theorems": ["C17_scalar_partial", "C17_read_single_partial", "C17_array_partial", "C17_string", "C17_strings", "C17_structure_bytes", "C17_status_is_error", "C17_ulint_refuted", "C17_one_element_slice_refuted", "C17_one_element_slice_fails", "C17_empty_slice_panics"], "note": "Values, arrays (2..65535 elements), strings, string arrays, raw structures, and every error status. Refuted: ULINT is unreadable, one-element slices always fail; an empty slice panics."},
{"property": "C18", "status": "proved", "theorems": ["C18_fragments_reassembled", "C18_structures_refused"], "note": "Any content under 4 GB, any chunk sizes (including empty ones). Structures are refused explicitly."},
{"property": "C19", "status": "proved", "theorems": ["C19_fragment_errors_surface"], "note": "Trace theorem over arbitrary controllers."},
{"property": "C20", "status": "partial", "theorems": ["C20_fragmented_read_ends_refuted", "C20_fragmented_read_ends_partial"], "note": "Refuted: a controller that always reports a partial transfer is polled for ever. Proved when partial answers cannot go on for ever."},
{"property": "C21", "status": "partial", "theorems": ["C21_list_read_partial", "C21_map_read_partial", "C21_short_reply_refuted"], "note": "Proved when each tag's own request fits the connection size (10 bytes more than its path) and the controller answers every tag. Without the first condition it need not end (C25); a controller leaving sub-replies out yields a shorter list without error (refuted)."},
{"property": "C22", "status": "partial", "theorems": ["C22_fits_even", "C22_fits_within_one_partial", "C22_odd_size_refuted", "C22_read_multi_refuted"], "note": "ReadList and ReadMap: proved for even connection sizes; for odd sizes one byte more is possible (bound proved, excess exhibited at 511). ReadMulti ignores the header and offset table (refuted)."},
{"property": "C23", "status": "partial", "theorems": ["C23_requests_well_formed", "C23_batches_well_formed", "C23_write_map_well_formed", "C23_write_map_any", "C23_elements_refuted", "C23_big_refuted"], "note": "Reads: every request any readList or ReadList sends. WriteMap: count, offsets and paths right for every map of any values up to 64 kB (C23_write_map_any), the whole embedded requests for scalar leaves. Refuted: a slice is announced as one element, and beyond 64 kB the offsets wrap."},
{"property": "C24", "status": "partial", "theorems": ["C24_replies_matched", "C24_error_fails", "C24_error_reported", "C24_untyped_struct_refuted"], "note": "Any layout; error statuses fail the call. Refuted for a structure read without an example value, whose result runs into the next sub-reply."},
{"property": "C25", "status": "partial", "theorems": ["C25_read_ends_partial", "C25_oversized_tag_refuted"], "note": "Refuted: an oversized first tag and a controller accepting an empty multi-service request never end. Proved when each tag's request fits."},
{"property": "C26", "status": "partial", "theorems": ["C26_fields_filled_partial", "C26_duplicate_refuted"], "note": "Proved for distinct tag names and values of the fields' types (embedded structs: C84). Two fields naming one tag: refuted."},
{"property": "C27", "status": "partial", "theorems": ["C27_write_reports", "C27_success_confirmed", "C27_udt_reports", "C27_transport_reported", "C27_write_map_refuted"], "note": "Proved for Write of scalars, slices, strings and structs, with the converse; transport errors for all writes. WriteMap and WriteMulti: refuted, the reply is never looked at."},
{"property": "C28", "status": "partial", "theorems": ["C28_one_write_per_leaf_partial", "C28_arrays_dropped_refuted", "C28_slice_refuted", "C28_struct_in_map_refuted"], "note": "Proved for array-free structs with distinct leaf names and scalar leaves, in whatever order the map is walked. Refuted: arrays are dropped, slices announced as one element, structs sent without a handle."},
{"property": "C29", "status": "proved", "theorems": ["C29_bool_array", "C29_bad_length_refused"], "note": "n = 1..65535 words; other lengths refused (0 panics, see C17_empty_slice_panics)."},
{"property": "C30", "status": "partial", "theorems": ["C30_distinct_partial", "C30_remove_refuted", "C30_number_wraps"], "note": "Without removals the numbers are 1,2,3,... whatever the controller answers, up to 65535 tags. False in general: after RemoveTag the next AddTag reuses a number in use, and removing one of the two tags sends the same request as removing the other; the 65536th tag has number 0."},
{"property": "C31", "status": "partial", "theorems": ["C31_created", "C31_raw_partial", "C31_values_partial", "C31_bit_refuted", "C31_long_string_refuted", "C31_many_refuted", "C31_empty_sync_refuted"], "note": "For every history of additions, syncs and reads within the protocol's sizes. Guards: at most 255 tags per sync, one reply's worth of data, strings up to 82 characters, no bit names, no sync without new tags; each guard has a refutation. Variables bound with AddTagRef are the subject of C78; RemoveTag is not in the histories."},
{"property": "C32", "status": "partial", "theorems": ["C32_close_partial", "C32_close_sends", "C32_sync_refuted"], "note": "Holds for every operation except SyncTags, after a successful or failed Close. False for SyncTags, which sends its request anyway."},
{"property": "C33", "status": "partial", "theorems": ["C33_counts", "C33_names_partial", "C33_names_refuted", "C33_elements_partial", "C33_elements_distinct", "C33_plain_refuted"], "note": "Counts, names and elements as documented when no argument contains a brace and the name ends in a subscript; refuted otherwise: arguments are re-substituted, and a name without a subscript is repeated n times instead of being indexed. Go map arguments are modelled as already printed."},
{"property": "C34", "status": "partial", "theorems": ["C34_scalars", "C34_slices", "C34_uint32_partial", "C34_uint32_refuted"], "note": "Exact for string, bool, int16, int32, float32, float64 and both slices; Uint32 also converts int32 (refuted for negative values)."},
{"property": "C35", "status": "proved", "theorems": ["C35_one_at_a_time"], "note": "Connect and Disconnect are modelled by their entry checks, the nested Disconnect of a failing request and any outcome of the rest."},
{"property": "C36", "status": "partial", "theorems": ["C36_own_reply_partial", "C36_reply_parsed", "C36_late_reply_refuted"], "note": "Proved for any number of goroutines, any interleaving and any segmentation as long as no receive times out. Refuted with a timeout: the mutex is released before the connection is taken down, so a waiting goroutine takes the late reply for its own."},
{"property": "C37", "status": "proved", "theorems": ["C37_open_parameters"], "note": ""},
{"property": "C38", "status": "partial", "theorems": ["C38_counts_differ_partial", "C38_plain_requests", "C38_attr_list_refuted"], "note": "Proved for requests that draw from the same counter. Refuted across counters: GetAttrList draws from the client's own counter, everything else from the process-wide one."},
{"property": "C39", "status": "partial", "theorems": ["C39_frames_partial", "C39_incomplete", "C39_sent_whole", "C39_server_takes_frame_partial", "C39_long_refuted", "C39_server_ignores_length_refuted", "C46_unknown_command_refuted"], "note": "Proved with the client as the reading peer, for frames the client and the server build, and with the server as the reading peer for frames whose data is as long as the command calls for. Refuted: payloads over 65535 bytes (the length wraps); the server ignores the announced length."},
{"property": "C40", "status": "proved", "theorems": ["C40_table", "C40_lookup", "C40_count"], "note": "For every sequence of calls. The lock makes calls atomic; counting form for closes by serial number."},
{"property": "C41", "status": "partial", "theorems": ["C41_history_partial", "C41_read_partial", "C41_last_write", "C41_coerced", "C41_shared_refuted"], "note": "Holds for every history of writes that each hand over their own value (all network writes do). Refuted when a slice read from one tag is written to another: the tags then share it."},
{"property": "C42", "status": "partial", "theorems": ["C42_slot", "C42_client_reads", "C42_array_refuted"], "note": "Slot shape and single strings proved for every string. Refuted for arrays: the type segment is repeated per element, which makes the client panic."},
{"property": "C43", "status": "partial", "theorems": ["C43_values_partial", "C43_strings_refuted", "C43_long_string_refuted", "C43_bools_refuted"], "note": "Proved for numbers, bools, arrays of numbers and strings up to 82 characters. Refuted for arrays of strings, longer strings and slices of bools."},
{"property": "C44", "status": "partial", "theorems": ["C44_scalar_partial", "C44_element_partial", "C44_array_partial", "C44_read", "C44_narrowing_refuted", "C44_new_array_refuted", "C44_count_refuted", "C44_bit_refuted"], "note": "Write then read through the modelled client, link and server: single values under plain names (any letter case, whatever other clients and the program write to other tags in between), elements of arrays of the value's type or of any values, arrays of numbers over an array of their type. Refuted in full: narrowing element writes, arrays to a new tag, counts mod 256 in {0x28,0x29,0x91}, bit names."},
{"property": "C45", "status": "partial", "theorems": ["C45_no_crash_partial", "C45_serve_ends_partial", "C45_write_nothing_refuted", "C45_read_many_refuted", "C45_index_first_refuted", "C45_multi_offset_refuted", "C45_open_refuted", "C45_io_interval_refuted", "C45_embedded_refuted", "C45_nil_tag_refuted"], "note": "False as stated: the _refuted theorems give frames (and a nil tag) that bring the server down. Proved: for every set of connections, every interleaving and every bytes received, the server goes down only if some connection receives one of the frames listed in SrvSpec.crash_frame; serving one connection always ends. MapTagProvider endpoints; socket writes taken to succeed; the I/O loops are modelled apart (C75 to C77)."},
{"property": "C46", "status": "partial", "theorems": ["C46_one_reply_partial", "C46_handle_kept", "C46_close_unanswered_refuted", "C46_unknown_command_refuted"], "note": "Proved for every stream and state: at most one reply per turn, with the request's sender context and the connection's session handle; exactly one when the handler reports no error and the request is not of a kind listed in SrvSpec.unanswered (unknown commands, unknown second item, forward close), which are never answered: refuted for those."},
{"property": "C47", "status": "partial", "theorems": ["C47_multi_partial", "C47_refuted", "C47_service_refuted", "C47_string_refuted"], "note": "Reads and writes of numbers, requests below 32768 and replies below 65000 bytes: the reply's count, offsets and sub-replies in order, each performing its request on the store left by the ones before; if one cannot be done nothing is sent and the ones before it are done. Refuted in full: no reply when one request fails, empty sub-replies for other services, strings written."},
{"property": "C48", "status": "proved", "theorems": ["C48_identity", "C48_missing", "C48_device"], "note": "Every attribute value (the seven attributes of the Go types NewServer gives them), name, IPv4 address and port; an attribute missing or of another type gives the client an error; identities of other devices parse exactly too. One call on one connection, the server's socket write succeeding."},
{"property": "C49", "status": "partial", "theorems": ["C49_layout", "C49_counter", "C49_control", "C49_timer_partial", "C49_timer_refuted", "C49_unpack", "C49_short"], "note": "COUNTER and CONTROL round-trip for every value, all three pack to the 12-byte layout, and any 12 bytes unpack. TIMER does not round-trip: Pack leaves out FS, LS, OV and ER; everything else of it survives (C49_timer_partial)."},
{"property": "C50", "status": "partial", "theorems": ["C50_tags_partial", "C50_programs_partial", "C50_single_refuted", "C50_fallback_refuted", "C50_error_refuted"], "note": "Proved for every table, page partition with two or more entries per page, program set and template family (records every wanted tag once, ends). Refuted: one-entry pages never end; programs on a later page are dropped when program listing is unsupported; an error status in place of a page is taken for the end. Program names padded with blanks are known under the bare name."},
{"property": "C51", "status": "partial", "theorems": ["C51_tags_partial", "C51_page_partial", "C51_pages_refuted", "C51_ends_refuted"], "note": "Ends and records all tags when every page moves on; the returned list is complete for one page. Refuted: later pages are missing from the returned list; a page without a later valid tag loops for ever."},
{"property": "C52", "status": "partial", "theorems": ["C52_numbers", "C52_stable", "C52_bijection", "C52_keys", "C52_listing", "C52_read_partial", "C52_wide_refused", "C52_many_refuted", "C52_case_refuted", "C52_array_refuted"], "note": "Proved: the number of a tag is its place in the dictionary of tag names (C52_numbers), independent of map order (C52_stable), a bijection between 1..n and the tags (C52_bijection), each name once in every provider built by writes (C52_keys), the server's own listing gives the same numbers (C52_listing), and a read of number <= 255 of a lower-case plain scalar tag, direct or wrapped, returns the tag's value (C52_read_partial). False beyond: numbers above 255 are refused (C52_wide_refused, C52_many_refuted), keys put into Data with upper case read another tag (C52_case_refuted), arrays give one element (C52_array_refuted)."},
{"property": "C53", "status": "partial", "theorems": ["C53_generic_reports", "C53_generic_confirmed", "C53_list_reports", "C53_single_refuted", "C53_single_data_partial"], "note": "Proved with the converse for GenericCIPMessage and for GetAttrList. GetAttrSingle: refuted, its status is never looked at."},
{"property": "C54", "status": "partial", "theorems": ["C54_membership_partial", "C54_added_found", "C54_empty_refuted", "C54_unwrap_ends", "C54_text"], "note": "Proved for errors without an empty combined error; newMultiError(nil) panics when tested."},
{"property": "C55", "status": "partial", "theorems": ["C55_extra_reply_refuted", "C55_bad_offset_refuted", "C55_long_string_refuted", "C55_read_multi_short_refuted", "C55_write_reply_refuted", "C55_write_only_short_crashes", "C55_attr_reply_refuted", "C55_connect_reply_refuted", "C55_connect_only_short_crashes", "C55_list_only_bad_entry_crashes", "C55_map_only_bad_entry_crashes", "C55_single_refuted", "C55_single_only_long_string_crashes", "C55_attr_only_short_crashes"], "note": "Refuted for batched reads in four ways, for single reads of string arrays, for writes, attribute reads and Connect. Conversely, and for every controller that sends bytes: batched reads (ReadList, ReadMap) come down only with a successful reply holding an entry past the end, an entry without a tag, or an array of strings with a count over 82 (CrashSpec.bad_entry); single reads only with an array of strings with a count over 82; single writes, attribute requests, generic messages and Connect only with a reply of fewer than two items. Tags addressed by name, connection size at most 40000."},
{"property": "C56", "status": "partial", "theorems": ["C56_type_mismatch_refuted", "C56_one_element_slice_refuted", "C56_only_mismatch_crashes_partial"], "note": "Refuted: mismatched scalar types and slices of one element panic. Proved: with distinct tags ReadMulti comes down only with one of the replies of C55, or when the values read are fewer than the fields or one is not of its field's type. Embedded structs: C84."},
{"property": "C57", "status": "partial", "theorems": ["C57_slice_partial", "C57_slice_struct_array_refuted"], "note": "Proved for element types whose arrays hold numbers or bools; refuted for elements containing arrays of structs."},
{"property": "C58", "status": "partial", "theorems": ["C58_write_sends_partial", "C58_udt_sends", "C58_bit_refuted", "C58_bool_slice_refuted"], "note": "Proved for names without a bit number and values other than []bool, and for structs. Refuted: a bit name writes the whole tag; []bool goes out as a structure without a handle."},
{"property": "C59", "status": "partial", "theorems": ["C59_size_partial", "C59_write_map_refuted"], "note": "Refuted: nothing is split. Proved when the parts fit."},
{"property": "C60", "status": "partial", "theorems": ["C60_single_sends", "C60_list_sends", "C60_generic_sends", "C60_long_path_refuted"], "note": "Proved for paths below 512 bytes; refuted beyond (the length byte wraps)."},
{"property": "C61", "status": "partial", "theorems": ["C61_group_read_partial", "C61_bool_array_refuted"], "note": "For supported scalar types and arrays other than BOOL; refuted for arrays of BOOL, where one element is asked for."},
{"property": "C62", "status": "partial", "theorems": ["C62_typed_partial", "C62_plain_refuted", "C62_shared_refuted"], "note": "For every group whose names are all different and whose arrays are given with a subscript, added after any history. False for arrays given without a subscript (the same value repeated) and for a tag that is also an element of the group (missing)."},
{"property": "C63", "status": "partial", "theorems": ["C63_route_counted_partial", "C63_close_route_counted_partial", "C63_odd_address_refuted", "C63_long_route_refuted"], "note": "Proved for routes of an even number of bytes up to 506. Refuted for dotted addresses of odd length and for longer routes."},
{"property": "C64", "status": "proved", "theorems": ["C64_close_names_open"], "note": ""},
{"property": "C65", "status": "proved", "theorems": ["C65_success_granted", "C65_granted_succeeds"], "note": ""},
{"property": "C66", "status": "partial", "theorems": ["C66_snapshot_partial", "C66_element_refuted"], "note": "Holds while no single element of that tag is written; refuted otherwise (TagRead returns a slice of the stored array)."},
{"property": "C67", "status": "partial", "theorems": ["C67_one_element_partial", "C67_range_write_refuted", "C67_nested_refuted"], "note": "Holds for one value. Refuted for two: refused for a typed array, stored as a nested list in an untyped one."},
{"property": "C68", "status": "partial", "theorems": ["C68_remove_partial", "C68_after_removal_refuted"], "note": "Proved for every history without an earlier removal; refuted after a removal (slot numbers are not renumbered, see C30)."},
{"property": "C69", "status": "partial", "theorems": ["C69_device_partial", "C69_server_refuted"], "note": "What devices send is parsed exactly (C69_device_partial). False of the built-in server: its reply gives its 20-byte item the length 10, so the client's call fails in every state (C69_server, C69_server_refuted)."},
{"property": "C70", "status": "partial", "theorems": ["C70_members_partial", "C70_unknown", "C70_name_refuted", "C70_empty_refuted", "C70_cut_refuted"], "note": "Members, nesting and unknown templates proved; refuted for the name (a name with a ;suffix loses its last character), an empty name before ; panics, a definition cut short with status 6 is accepted."},
{"property": "C71", "status": "partial", "theorems": ["C71_write_partial", "C71_array_refuted"], "note": "Proved for one scalar written to a numbered (<= 255), lower-case, plain tag: success, the tag holds the value, every other tag and provider unchanged. False for several values: success is reported, the first value replaces the whole array (C71_array_refuted)."},
{"property": "C72", "status": "partial", "theorems": ["C72_list_partial", "C72_map_partial", "C72_scalars_partial", "C72_struct_partial", "C72_long_refuted", "C72_strings_refuted"], "note": "Numbers, bools, strings of at most 82 characters and runs of numbers of one type, in any mix and number. False in general: longer strings are cut, arrays of strings get no reply."},
{"property": "C73", "status": "partial", "theorems": ["C73_outcome_partial", "C73_values_partial", "C73_half_refuted", "C73_string_refuted"], "note": "Maps of single numbers and bools in requests under 32 kB. False in general: after a failure the entries before the failing one are stored, and a string cannot be written this way."},
{"property": "C74", "status": "partial", "theorems": ["C74_reads_partial", "C74_unique_partial", "C74_short_partial", "C74_sound_partial", "C74_typed", "C74_struct_array_refuted", "C74_short_refuted", "C74_byte_bool_refuted"], "note": "Proved for types whose arrays hold numbers or bools, for short input where every field takes up room, and that bytes are accepted exactly if they begin with a value's bytes where bools share bytes. Refuted: elements after the first of an array of structs are misread; missing padding before a trailing empty array goes unnoticed; an unpacked bool takes any non-zero byte for true."},
{"property": "C75", "status": "partial", "theorems": ["C75_delivers_partial", "C75_confined", "C75_only_datagrams", "C75_stale_refuted", "C75_cut_refuted", "C75_short_refuted"], "note": "For reachable states: a message for the only open connection with its identifier delivers exactly the value it shows (struct types whose arrays hold numbers or packed bools); any datagram at all leaves the server up and can change only what the provider of an open connection with that identifier received; only datagrams change it. Refuted: an older message replaces a newer one, a cut datagram is completed with zeros, a message with too little data sets some fields."},
{"property": "C76", "status": "partial", "theorems": ["C76_opens", "C76_ticks_partial", "C76_nothing_else", "C76_numbered_partial", "C76_closed", "C76_hangup_refuted", "C76_interval_refuted"], "note": "For reachable states: an I/O forward open starts sending; each tick of an open sending connection sends one message with the identifier, the next number and the value set last (same restriction on arrays); nothing else is sent; messages are numbered 1, 2, 3...; nothing is sent after the close. Refuted: the end of the TCP session does not stop the messages, and a forward open with an interval of zero ends the program."},
{"property": "C77", "status": "partial", "theorems": ["C77_delivers_partial", "C77_in_order", "C77_starved_refuted"], "note": "For reachable states: a message reaches each channel with a waiting receiver provided all channels made earlier have one too; what channels gave is one common list of received values, in order, with some left out. Refuted: a channel nobody reads keeps every later one from its values."},
{"property": "C78", "status": "partial", "theorems": ["C78_filled_partial", "C78_any_order", "C78_confined", "C78_subscript_refuted", "C78_single_refuted", "C78_array_refuted", "C78_value_refuted", "C78_embedded_refuted", "C78_twice_refuted", "C78_typed"], "note": "Fields of structs are scalars, strings and slices of at least two elements whose tag names the first element, tags and variables are given once, the struct is passed by pointer. Outside of that it is false, see the refutations: a slice whose tag has no subscript gets only its last element filled; a slice of one element or an array makes every ReadAll fail after the addition succeeded; an embedded struct shifts fields so that another field is overwritten; naming a tag in two structs leaves the first stale; a struct passed by value panics. That only given variables change, and only in ReadAll, is proved for all histories and all controllers."},
{"property": "C79", "status": "partial", "theorems": ["C79_connects_partial", "C79_read_partial", "C79_numbers", "C79_others", "C79_same_time_refuted", "C79_no_route_refuted"], "note": "Proved when no other open connection has the client's connection number (C79_connects_partial, C79_read_partial up to the result of a Read); others are unaffected without that condition (C79_others). False in general: the numbers come from the client's clock in milliseconds, and two clients connecting in the same millisecond share them, so that the second reads the first's tags; Connect also succeeds for a route with nothing behind it."},
{"property": "C80", "status": "partial", "theorems": ["C80_closes_partial", "C80_others", "C80_nothing_left", "C80_round", "C80_other_refuted"], "note": "Proved when no other open connection has the client's 16-bit serial number. False in general: two clients that connect 65.536 seconds apart share it, and the second's Disconnect closes the first's connection."},
{"property": "C81", "status": "partial", "theorems": ["C81_no_crash_partial", "C81_reconnect_refuted", "C81_cancel_idle_refuted", "C81_cancel_refuted", "C81_two_refuted"], "note": "Proved for programs that leave the keep-alive to Connect and Disconnect and do not connect again before the previous keep-alive is gone. False in general: Connect, Disconnect, Connect, Disconnect can close the channel twice, KeepAliveCancel closes a nil channel when none is running and a closed one when called twice or before Disconnect, and a quick reconnect leaves two keep-alives. The shared fields are read and written one at a time in the model."},
{"property": "C82", "status": "proved", "theorems": ["C82_watches", "C82_every_tick"], "note": "GetAttrList and ListAllTags are arbitrary functions of the state here; they are the subject of C53, C50 and C60."},
{"property": "C83", "status": "partial", "theorems": ["C83_started_partial", "C83_second_refuted", "C83_list_refuted"], "note": "Proved as long as no Disconnect has found a keep-alive running. False in general: the cancelled keep-alive switches KeepAliveAutoStart off, so the next connection has none; and a failing tag listing ends the keep-alive but not the connection."},
{"property": "C84", "status": "partial", "theorems": ["C84_args_partial", "C84_embedded_refuted", "C84_embedded_last_panics", "C84_unexported_panics"], "note": "Shown for flat structs with exported tagged fields, distinct names after substitution and arguments without a brace (C33_names_refuted shows why). Refuted for fields of embedded structs: the value goes to the field that follows the embedded struct, or ReadMulti panics. A tag on an unexported field panics as well."},
{"property": "C85", "status": "partial", "theorems": ["C85_loaded_partial", "C85_controller_structure_refuted", "C85_controller_array_refuted", "C85_nested_refuted", "C85_string_refuted", "C85_byte_refuted", "C85_unsigned_refuted", "C85_decorated_only_refuted", "C85_dimensions_refuted", "C85_out_of_range", "C85_radix_refuted"], "note": "Shown for controller tags that are atoms and program tags that are atoms, flat structures and one-dimensional arrays of them, in both forms (raw and decorated), of the handled types and in range. Refuted for structures and arrays of the controller, nested structures, strings, BYTE above 127, unsigned and other unhandled types, files with the decorated form only, several dimensions and other radixes; numbers out of range are clamped."},
{"property": "C86", "status": "partial", "theorems": ["C86_loads_partial", "C86_only_these_load", "C86_no_section_crashes", "C86_program_refuted", "C86_dimension_refuted"], "note": "Exactly the files with a Tags and a Programs section, Tags in every program and a number as dimension of every program array load (both directions). All others panic or are refused."},
{"property": "C87", "status": "partial", "theorems": ["C87_rungs_partial", "C87_edits_refuted", "C87_quote_refuted", "C87_no_tasks_crashes"], "note": "Shown for files in which every program is scheduled once, places are unique and comments are not wrapped in single quotes. Refuted for two rungs with one number (pending edits) and for quoted comments; a file without tasks panics."},
{"property": "C88", "status": "partial", "theorems": ["C88_tags_partial", "C88_program_refuted", "C88_alias_refuted", "C88_bit_refuted", "C88_type_refuted", "C88_recursive_refuted", "C88_no_modules_crashes"], "note": "Shown for the controller's tags with data, types not part of themselves, all members; a bit of a type of bits alone is found with its number in the type after its name (tag.member<n>). Refuted for program tags, aliases, bits (not under their names), types with a description (an entry for a member that does not exist) and types part of themselves (never ends); a file without modules panics."},
{"property": "C89", "status": "proved", "theorems": ["C89_reports", "C89_confirmed"], "note": ""},
{"property": "C90", "status": "partial", "theorems": ["C90_powerup_partial", "C90_bit_below", "C90_other_refuted", "C90_io_refuted"], "note": "Only PowerupFault is right. The constants are counted from FaultType_None at bit 0 without a gap for type 2, so every other method looks at the bit below its own; refuted for each of them in both directions."},
{"property": "C91", "status": "partial", "theorems": ["C91_description_partial", "C91_diagnostic_refuted"], "note": "Shown for all events but 17:32, whose description has code 31."},
{"property": "C92", "status": "partial", "theorems": ["C92_word_partial", "C92_exist_refuted", "C92_status_refuted"], "note": "The word is returned as reported and Enabled is bit 0. Refuted: Exist is the same bit as Enabled, so whatever two bits are meant one of the answers is wrong; and a failing attribute status is not looked at."},
{"property": "C93", "status": "proved", "theorems": ["C93_properties", "C93_match"], "note": ""},
{"property": "C94", "status": "partial", "theorems": ["C94_struct_partial", "C94_slice_partial", "C94_natural", "C94_any", "C94_sound_partial", "C94_slice_sound_partial", "C94_no_crash", "C94_by_value_refuted", "C94_small_members_refuted", "C94_any_slice_crashes"], "note": "Proved for types whose arrays hold numbers or bools; for slices the types with a 4-byte member (or sizes a multiple of four), and success implies such bytes were sent where bools share bytes. Refuted: a struct passed by value reports success with no request sent; slices of structures without a 4-byte member take Logix padding for the next element; a []any panics."},
{"property": "C95", "status": "partial", "theorems": ["C95_open_sockets", "C95_partial", "C95_disconnect", "C95_refused_refuted"], "note": "Proved: exactly the current socket and those on which no connection was granted are open, and Disconnect always closes. Refuted: every Connect that fails after dialling leaves its socket open, one per Read with AutoConnect. Calls one after the other; keep-alive apart."},
{"property": "C96", "status": "partial", "theorems": ["C96_partial", "C96_list_crashes", "C96_write_map_crashes", "C96_read_map_refuted", "C96_recovered_hangs"], "note": "Proved: single reads, writes, attributes, Connect and Disconnect always return; batches once the firmware version is known; other methods if the last dial worked. Refuted: ReadMap panics when the controller goes away during its first read; methods without checkConnection and WriteMap panic without a connection, and after recovering every call hangs."},
{"property": "C97", "status": "partial", "theorems": ["C97_reconnects_partial", "C97_off", "C97_sound", "C97_write_map_refuted"], "note": "Proved for all reads, Write and WriteMulti. Refuted for WriteMap: once the firmware version is known it never reconnects."},
{"property": "C98", "status": "partial", "theorems": ["C98_single_partial", "C98_firmware_partial", "C98_all_partial", "C98_missing_hangup", "C98_generic_fails", "C98_missing_refuted", "C98_generic_refuted"], "note": "Proved: GetAttrSingle of any attribute the identity has gives its data (numbers, strings up to 82 characters), the firmware revision is the low byte of attribute 4, GetAttributesAll gives the identity (name cut at 255 characters) and the program object's name, is an error for every other object, and the connection stays linked. Refuted: GenericCIPMessage with GetAttributeSingle always fails since the server answers with another service's code (C98_generic_fails for every attribute), and asking GetAttrSingle for anything not there makes the server end the TCP connection (C98_missing_hangup)."},
{"property": "C99", "status": "partial", "theorems": ["C99_empty_partial", "C99_fails", "C99_refuted"], "note": "Proved: listing succeeds and adds no tags when the provider has none. Refuted: with any tag at all ListAllTags fails and the client knows nothing, whatever the tags are (C99_fails; names of characters 1 to 255, a listing under 60000 bytes, listing from the start)."},
{"property": "C100", "status": "partial", "theorems": ["C100_service_partial", "C100_list_partial", "C100_canned_partial", "C100_buffer_partial", "C100_keep_alive_fails", "C100_keep_alive_refuted"], "note": "Proved: for every connected service the server does not know, every path and data, the call is an error and server and connection are as before; GetAttrList fails with status 8 for every class, instance and attributes, hence the controller properties and forces; faults fail too, and no data table buffer can be made. Refuted: the keep-alive ends with its first question (C100_keep_alive_fails, whatever the ticks)."},
{"property": "C101", "status": "partial", "theorems": ["C101_taken_partial", "C101_opens_partial", "C101_accepts_partial", "C101_closed_partial", "C101_never_returns", "C101_returns_refuted", "C101_udp_fails", "C101_retry_fails", "C101_retry_refuted", "C101_twice_crashes", "C101_twice_refuted"], "note": "Proved: with both ports free Serve serves, with the TCP port taken it returns an error and opens nothing; while the one call serves and the program has not closed the listener, every client is accepted with a handler of its own, after any history of failed accepts; once the program has closed the listener no client gets in until Serve is called again. Refuted: Serve never returns once it serves, also with both listeners closed (C101_never_returns, all executions); with the UDP port taken it keeps the TCP port so that no later call ever serves (C101_udp_fails, C101_retry_fails); a second call while serving crashes the program when the next client connects (C101_twice_crashes)."},
{"property": "C102", "status": "partial", "theorems": ["C102_hangup_partial", "C102_grows", "C102_anyone", "C102_refuted"], "note": "Proved: the end of a TCP connection closes that handler only; tags, the table and all other connections are unchanged. Refuted: the connections opened over it stay in the table, one more for every client that came (C102_grows, any number of clients), and any other client can read over them (C102_anyone)."},
{"property": "C103", "status": "partial", "theorems": ["C103_frame", "C103_course", "C103_attribute_refuted", "C103_hops_refuted"], "note": "Proved of every frame and state: what the server answers, and whether it goes on, does not depend on the tags of providers the frame is not meant for, and leaves them as they are (C103_frame); the same for whole courses of frames on all connections (C103_course). What a frame is meant for is specified from its bytes. Refuted: attribute requests of class 0xC8 act on the tags at route 1,0 whatever route they carry; a connection's route is cut to its first hop, so a connection opened to 1,0,1,1 acts on the tags at 1,0."},
{"property": "C104", "status": "partial", "theorems": ["C104_same_partial", "C104_odd_fails", "C104_odd_refuted", "C104_told_refuted"], "note": "Proved for requests of even length: the server goes on, ends the TCP connection or crashes alike, its whole state afterwards is the same, and the replies have the same contents; when it cannot be done nothing is sent. Refuted: a request of odd length is never done and never answered in an Unconnected Send (its pad byte is taken for the size of the route), for every such request and route; a read of a missing tag is answered with status 0x28 over a connection and not at all in an Unconnected Send. Not covered: counts whose low byte looks like a path segment."},
{"property": "C105", "status": "partial", "theorems": ["C105_connected_partial", "C105_unconnected", "C105_last_opened", "C105_attribute_service", "C105_address_refuted", "C105_service_refuted"], "note": "Proved: unconnected requests of every service (C105_unconnected); reads and multi-service requests, whatever they contain; and other connected requests when the connection is the one opened last on that TCP connection, which a forward open makes the handler's own (C105_last_opened). Refuted: writes, identity and tag-list requests over an older connection are answered to the newer one; Get Attribute Single over a connection is always answered as service 0x52."},
{"property": "C106", "status": "partial", "theorems": ["C106_moment_partial", "C106_unconnected_partial", "C106_alone", "C106_array_refuted"], "note": "Proved for any number of clients and any schedule, of every request over a connection but multiple ones (C107) and of unconnected reads and writes; reads of an array need that nobody else names an element of it meanwhile, or that a single value is read. Also needs that no other client closes this connection. Refuted otherwise: the elements of an array are read one by one after the lock is released, so a reply can show an array that never existed. C106_alone: without others the steps are the handlers of SrvModel."},
{"property": "C107", "status": "partial", "theorems": ["C107_in_turn_partial", "C107_refuted"], "note": "Refuted: another client can read between the parts. Proved: the parts are done in their order, each in one go at a moment of its own, and the reply is made of their answers (parts that read an array: if nobody names an element of it meanwhile)."},
{"property": "C108", "status": "partial", "theorems": ["C108_answer", "C108_goes_on", "C108_no_clash_partial", "C108_one_listing_partial", "C108_refuted", "C108_listings_refuted", "C108_buffer_refuted"], "note": "Answers and progress are proved for every interleaving. No two goroutines meet in a map as long as nobody lists tags, or one goroutine lists on firmware up to 20 and no buffer is set up. False in general: KnownTags has no lock, so a lookup on newer firmware, a second listing or a tag added to a buffer meets a listing, which the keep-alive may be doing. A listing is modelled as the tags it stores one after the other."},
{"property": "C109", "status": "partial", "theorems": ["C109_raw_partial", "C109_values_partial", "C109_refuted", "C109_wrong_tag_refuted", "C109_unsent_refuted"], "note": "Proved for sequences that remove only tags the controller was told of and add none after the first removal: all removals succeed and both reads return exactly the remaining tags with their values. False in general: indices are counted from the number of tags left, so after removals a new tag shares or undercuts the index of an old one: two tags swap values without an error (C109_refuted), removing the new tag makes the controller drop the old one (C109_wrong_tag_refuted), and a tag not announced yet cannot be removed (C109_unsent_refuted)."},
{"property": "C110", "status": "partial", "theorems": ["C110_listed_partial", "C110_agreeing_partial", "C110_stale_refuted"], "note": "Proved for listings as in C50 when the tags known before are still there under their instances (for instance none, or after tags were added): the tables agree with the controller again, and every valid name, with any type and after any history, gets a path that refers to exactly the tags of that name. Refuted in full: the table of known tags is only added to, so after a removed tag's instance is reused a listing leaves the old name, whose path now refers to the new tag. Programs whose number is unknown (the fallback of C50) and names of structure members that are known by number are outside: newIOI knows whole tags only."},
{"property": "C111", "status": "partial", "theorems": ["C111_single_partial", "C111_several_partial", "C111_unknown_partial", "C111_names_refuted"], "note": "Proved bounds in socket timeouts: Connect 10, Disconnect 3, an attribute 16, Write 19, Read 19 and 3 for each further fragment, listings 6 and 3 for each further message; ReadMap 13 and 3 for each message and ReadMulti, WriteMulti 16 once the firmware version is known. Before that 16 more for each name; refuted that it goes by messages: against a controller that opens connections but does not answer the question for its version, one ReadMap message takes two timeouts for every name looked up. Calls one after the other, as in C95 to C97; that they return at all is C96."},
{"property": "C112", "status": "proved", "theorems": ["C112_one_each", "C112_again"], "note": ""},
{"property": "C113", "status": "partial", "theorems": ["C113_packed_crashes", "C113_packed_fails", "C113_packed_refuted", "C113_pointer_partial", "C113_longer_slice_fails", "C113_slice_refuted", "C113_only_structs"], "note": "False of the code: ReadPacked passes &b for its byte buffer, Read takes that for a pointer to a structure and Unpack panics on the first byte, so it crashes for every non-empty type as soon as the controller answers with a structure (C113_packed_crashes) and never returns a value (C113_packed_fails). A pointer to a slice of structures asks for one element: right for one (C113_pointer_partial), an error for two or more although the slice itself can be read (C113_longer_slice_fails, C113_slice_refuted). Pointers to slices of anything else never succeed unless empty, and the crash happens exactly there (C113_only_structs). Slices of slices and user types with an Unpack method are not modelled."},
{"property": "C114", "status": "partial", "theorems": ["C114_layout_partial", "C114_reads_partial", "C114_round_trip_partial", "C114_round_trip_refuted", "C114_array_refuted", "C114_array_read_refuted", "C114_description_partial", "C114_write_partial", "C114_read_partial"], "note": "Proved for every nesting without arrays of structs: the packed bytes show the Logix structure, any bytes showing it are read as what they mean, the round trip, the description and handle (with CRC-16 computed), the Write request and Read. Refuted: an array of TIMERs goes through binary.Write, 15 bytes each in field order (C114_array_refuted, C114_array_read_refuted); FS, LS, OV and ER of a TIMER are not sent, so a value is only read back if the target already agrees on them (C114_round_trip_refuted). The description theorem needs the member types TypeEncode has a name for (as C16)."},
{"property": "C115", "status": "partial", "theorems": ["C115_reads_partial", "C115_layout_partial", "C115_length_partial", "C115_reads_refuted", "C115_layout_refuted", "C115_length_refuted"], "note": "Proved if every nested struct has a member of at least four bytes and ends at a multiple of its largest: Unpack reads any bytes laid out as in the controller (the filling at the end of the outermost is left unread), Pack writes them up to that filling, exactly if none is needed. Refuted otherwise: after a lgxtypes.STRING (86 bytes, 88 in the controller) members are read from and written to the wrong place; a structure ending in a short member is sent too short. Arrays are taken to start at their element's alignment."},
{"property": "C116", "status": "partial", "theorems": ["C116_v4_partial", "C116_v6_fails", "C116_refuted"], "note": "Proved for every IPv4 address. Refuted for IPv6, and in fact for every IPv6 address (C116_v6_fails): the text is cut at its first colon, inside the brackets, the dial fails and the goroutine ends without a message although the Forward Open was answered with success. What is sent is C45."},
{"property": "C117", "status": "partial", "theorems": ["C117_string_partial", "C117_string_stored", "C117_string_read", "C117_element_partial", "C117_any_read", "C117_other_fails", "C117_rest_refuted", "C117_length_refuted", "C117_collision_refuted"], "note": "Proved: Write of a lgxtypes.STRING stores its characters (C117_string_stored), Read of a text gives the STRING with zeros after it, a STRING with zeros after its text comes back as written through any activity of others on other tags, also as a Go string; the same for elements of arrays of texts or of any values (C117_element_partial, C117_any_read); every structure whose number is not that of STRING is refused with an error and nothing changes (C117_other_fails). False in general: characters after LEN are lost, a LEN out of range comes back as 82, and a struct whose description has the checksum 0x0FCE (om5) is taken for a text. Several STRINGs at once: C134."},
{"property": "C118", "status": "partial", "theorems": ["C118_atomic", "C118_browsed_partial", "C118_predefined_partial", "C118_code_partial", "C118_bool_refuted", "C118_structure_refuted", "C118_code_refuted"], "note": "Proved: Atomic and Template_ID for every type word, also of every tag that ListAllTags records (under the assumptions of C50); PreDefined for types below 256 and above 0x100; IsAtomic for all elementary codes. Refuted: PreDefined is false of a BOOL tag kept at bit 1 (type word 0x01C1) and true of the structure 0x100; IsAtomic is true of the code of structures."},
{"property": "C119", "status": "partial", "theorems": ["C119_last_partial", "C119_array_refuted", "C119_nested_refuted"], "note": "Proved if the member that ends last is a single value of an elementary type and no nested structure is smaller than the size of the elementary type whose code is the low byte of its number. Refuted: an array at the end counts as one element; with the structure 0x1A0 as a member Size is too large although the last member is of a simple type (which the comment in the code expects to suffice)."},
{"property": "C120", "status": "partial", "theorems": ["C120_short_partial", "C120_elementary_partial", "C120_values_partial", "C120_refuted", "C120_texts_refuted", "C120_structures_refuted"], "note": "Proved when no answer is longer than its question (C120_short_partial), in particular for elementary types whose values plus two bytes are no longer than the path; always, the values of a request for several tags come to less than the connection size. Refuted in full: headers and offsets of replies are not counted (49 DINTs with two-letter names), texts count for one byte, structures for 88."},
{"property": "C121", "status": "partial", "theorems": ["C121_size_partial", "C121_buffer_partial", "C121_text_refuted", "C121_ulint_fails"], "note": "Proved for everything readValue decodes but texts, and for buffers of every elementary type but ULINT. Refuted for texts (Size 1, 86 bytes read); a ULINT has a size and is never decoded."},
{"property": "C122", "status": "partial", "theorems": ["C122_browse_partial", "C122_browse_refuted", "C122_name_refuted", "C122_recursion_refuted", "C122_identity", "C122_canned_partial", "C122_buffer_partial"], "note": "False as stated: a reply of fewer than two items panics every one of them (C122_browse_refuted), so does a template definition whose name is empty (C122_name_refuted), and a template that contains itself is asked for without end (C122_recursion_refuted). Proved: for every controller these replies are the only ones that panic; replies to ListIdentity and ListServices never do. Adding tags to a buffer asks the controller nothing and is not part of C122_buffer_partial."},
{"property": "C123", "status": "partial", "theorems": ["C123_path_partial", "C123_read_partial", "C123_write_partial", "C123_symbolic_refuted", "C123_subscript_refuted", "C123_element_refuted"], "note": "Proved for a Symbolic call per level and an Element call per subscript below 65536: the path is the tag's in the user's spelling (the client's own in lower case) and generic reads and writes against the built-in server act on the tag. False for a whole name in one Symbolic call, which the documentation allows (C123_symbolic_refuted: one segment; C123_subscript_refuted: arr[3] becomes the symbol arr[] without an error) and for elements above 65535 (C123_element_refuted)."},
{"property": "C124", "status": "partial", "theorems": ["C124_ignored", "C124_registration", "C124_kept", "C124_unregistered_refuted", "C124_shared_refuted", "C124_farewell", "C124_farewell_refuted"], "note": "Proved: a registration is answered with the handle it names or a drawn one, and every later reply carries it until another registration. Refuted: the handle in a frame is never looked at (C124_ignored, for all frames), so a peer that never registered writes tags; peers choose their own handle and may share one; a farewell (UnRegisterSession) changes nothing. Model trusts rand.Uint32 as any sequence of numbers."},
{"property": "C125", "status": "partial", "theorems": ["C125_last", "C125_switch", "C125_before_serving_partial", "C125_refuted"], "note": "Proved: of any sequence of Handle calls the last for a route counts; a route given to another provider between requests switches connected clients of that route at their next request and no others; when all routes are registered first by one goroutine, no two goroutines meet in the map in any interleaving and everyone finds what was registered. Refuted: the router has no lock, so a route registered while a request is served meets it in the map (Go stops the program when it notices)."},
{"property": "C126", "status": "proved", "theorems": ["C126_again", "C126_read"], "note": "Invariant over all histories of visits. Uses of tags in between are any change of the tags that leaves connections and routes alone. Clients of different routes: see C79, where this is false."},
{"property": "C127", "status": "partial", "theorems": ["C127_silent", "C127_unknown_partial", "C127_waits_fails", "C127_refuted"], "note": "False: forwardClose sends no reply. C127_silent: closing a connection the server has sends nothing and keeps the TCP connection. C127_waits_fails: every client that connected waits the whole SocketTimeout when it disconnects, on any network (Disconnect still returns no error). C127_refuted: a witness. C127_unknown_partial: a close of a connection the server does not have ends the TCP connection, so there is no wait."},
{"property": "C128", "status": "partial", "theorems": ["C128_recovers_partial", "C128_slices_partial", "C128_steady", "C128_next_fails", "C128_any_request", "C128_refuted"], "note": "The statement is false: after refusing a request the server ends the TCP connection, and the client notices only when its next call fails (C128_next_fails for every missing tag and every next read; witness C128_refuted). Proved: among three reads of existing tags in a row at least one has the value, whatever the other clients do in between and whatever state the connection was in (C128_recovers_partial, and C128_slices_partial for arrays of numbers); a client whose connection stands reads the value every time (C128_steady); no connected request of any content takes a client out of the states C128_recovers_partial speaks of (C128_any_request). Missing: structures; several routes."},
{"property": "C129", "status": "partial", "theorems": ["C129_write_partial", "C129_string_partial", "C129_other_partial", "C129_next", "C129_next_read", "C129_string_next", "C129_other_next", "C129_unreached", "C129_routes_refuted"], "note": "C129_write_partial proves it for numbers, texts and slices of numbers if all clients of the server use one route, whatever the state of the connection; C129_string_partial does so for a lgxtypes.STRING, and C129_other_partial proves that every other structure whose types are regular is refused with an error and changes no tag (structures whose handle equals that of STRING are excluded). C129_next, C129_string_next and C129_other_next add that after a failed write the next possible one is done, and C129_next_read that the next read has the value. No write returns nil if Connect does not succeed (C129_unreached). With several routes it is false: a client that connects in the same millisecond as one of another route is given the same connection number, and its write is answered with success and done at the other route's tags (C129_routes_refuted). Missing: structures with irregular types."},
{"property": "C130", "status": "partial", "theorems": ["C130_begun_partial", "C130_one_partial", "C130_alone", "C130_recovers_partial", "C130_others_fail", "C130_refuted", "C130_honest"], "note": "False: a call made while another goroutine's call is inside Connect gets the error of startConnect (C130_others_fail: any number of goroutines; C130_refuted). Proved: a call begun while the client is connected succeeds, and so do all later calls of that goroutine, for all interleavings; when all calls are over at least one has succeeded and the client is connected; a goroutine on its own never gets an error; after any failures, once no call is under way, the next call succeeds; who never gets an answer is never told of success. Model: each step is one visit of the mutex; what the network does inside a step is one boolean."},
{"property": "C131", "status": "partial", "theorems": ["C131_alone", "C131_works_partial", "C131_bounded_partial", "C131_all_foreign", "C131_session_refuted", "C131_ended_refuted", "C131_quit_refuted"], "note": "False: sendMsgBuild takes the session handle before the mutex is taken, so a request can go out on the next connection under the old session (C131_session_refuted; C131_all_foreign: those of all other goroutines at once), and a late Disconnect ends the new connection (C131_ended_refuted); nothing need fail for it if one goroutine calls Disconnect (C131_quit_refuted). Proved: both hold for one goroutine whatever the network does, and for any number while network and controller work and none calls Disconnect; for every reconnection at most one request of each other goroutine goes out under a foreign session, a bound that is reached. Model: methods that call checkConnection; one request per call; the connection id of connected requests is taken at the same point and not shown separately."},
{"property": "C132", "status": "partial", "theorems": ["C132_dials_partial", "C132_crashes", "C132_refuted", "C131_alone"], "note": "False: net.DialTimeout stores nil in client.conn when it fails, and a request of another goroutine waiting for the mutex calls SetWriteDeadline on it (C132_crashes: with any number of goroutines from two on; C132_refuted). Proved: no crash as long as every dial works, whatever else fails; none for a goroutine on its own (C131_alone)."},
{"property": "C133", "status": "proved", "theorems": ["C133_ended"], "note": "For every interleaving of calls with AutoConnect and Disconnect in CrewModel: no Sent and no second Ended for a connection behind its Ended. The Forward Close that Disconnect itself sends goes out before."},
{"property": "C134", "status": "partial", "theorems": ["C134_sent", "C134_one_partial", "C134_second_wrong", "C134_crashes", "C134_slice_refuted"], "note": "Proved: the server's answer holds all strings in order, each in 92 bytes with its own type segment (C134_sent); a slice of one STRING is filled correctly (C134_one_partial). False in general: for every array and every number of elements from two on, Read into a slice of STRING succeeds but its second element is no string of the array (C134_second_wrong, witness C134_slice_refuted), and Read into a []string panics (C134_crashes). Strings of up to 82 characters, answers below 65000 bytes, counts the server's path parser does not mistake for a path segment (clear_count)."},
{"property": "C135", "status": "partial", "theorems": ["C135_second_wrong", "C135_empty_partial", "C135_refuted"], "note": "Proved: the write succeeds, only that array changes, it holds as many strings as were written and the first is right (part of C135_second_wrong); if all others are empty it is stored exactly (C135_empty_partial). False in general: the client pads each string to 88 bytes, the server takes 86, so for every slice whose second string begins with a character other than NUL the second string stored is another one, while the write reports success (C135_second_wrong, witness C135_refuted). Writes over an existing array of strings, below 63000 bytes."}
]}
