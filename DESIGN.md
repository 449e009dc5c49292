# Formal model of danomagnum/gologix in Rocq (Coq 8.16.1)

## Method

The Go code in /repo is read as text and re-expressed, function by function,
as total computable Gallina functions in `rocq/theories`.  Every definition
cites the file and lines it models.  Nothing is extracted from or run against
the Go sources.  Conventions:

* all Go integers are `Z`; truncation (`uint16(x)`, `byte(x)`) is written out
  as `mod 2^k` wherever the code truncates, two's complement conversion is
  explicit; floats are their bit patterns, moved but never computed with;
* `[]byte` and `string` are `list Z`, one `Z` per byte; theorems that need it
  carry the hypothesis that every byte lies in 0..255;
* every function that can fail returns `res A = Ok a | Err e | Panic |
  OutOfFuel`; a Go run-time panic (index out of range, nil dereference, close
  of a closed channel) is the outcome `Panic`, never a default value;
* unbounded loops and recursion take fuel and return `OutOfFuel`; termination
  claims are of the form "for enough fuel, not `OutOfFuel`", non-termination
  claims of the form "`OutOfFuel` for every fuel";
* goroutines and locks are small-step transition systems over explicit thread
  states; the scheduler is an arbitrary choice at every step;
* a controller is an oracle argument: a function from (state, request) to
  (reply or error, state), or a memory plus an arbitrary chunking choice;
* a Go map is an association list; where its iteration order matters the order
  is an argument.

Files per area: `XModel.v` (definitions only), `XSpec.v` (small independent
specification: what the bytes should be, what a user expects to see),
`XProof.v` (lemmas), `Prop_X.v` (the property theorems, each with `Print
Assumptions`, and Examples showing a non-trivial case that meets the
hypotheses).  A property false of the faithful model is stated as `_refuted`
(existence of a witness), beside it the strongest version proved, named
`_partial` when it is weaker than the English claim.

## Trusted base

* The Coq 8.16.1 kernel, including `vm_compute`.
* The standard library; no other library.
* The definitions in the `*Model.v` files as a reading of the Go code, and in
  the `*Spec.v` files as a reading of the English claims.

### Assumptions

`Print Assumptions` of every theorem in MANIFEST.json prints "Closed under the
global context": no axiom is used, of the library or otherwise.  (The checker
lists seven constants of `Coq.ssr.ssrunder` as axioms of the loaded library:
they come with `lia`'s dependencies in the standard library and no theorem
depends on them.)  There is no Axiom, Parameter, Admitted, module type, functor
or switched-off check in `rocq/theories`.

## What is modelled

| area | model | code |
|------|-------|------|
| path segments | SegModel | cip_definitions.go (class, instance, attribute, element, address, port) |
| tag names, request paths, cache | IoiModel | ioi.go; getTagFromPath in server_connected.go |
| routes | PathModel | path.go |
| items | ItemsModel | items.go |
| Go values and CIP types | TypesModel | types.go |
| struct packing, type names | PackModel | pack.go |
| single, slice, string, struct and fragmented reads | ReadModel | read.go (single), partialread.go |
| list, map and struct reads | BatchModel | read.go (multi) |
| struct reads with arguments, embedded structs | MultiModel | ReadMulti in read.go |
| writes | WriteModel | write.go, udt_write.go |
| attributes, generic messages | AttrModel | getattr.go |
| tag groups | GroupModel | taggroup.go, taggroup_readmap.go |
| buffered tags | DataModel | datatable.go except variables |
| buffered tags: variables | RefModel | Var, setGoVar, AddTagRef, AddTaggedStruct in datatable.go |
| EIP frames, sending, receiving | EipModel | sendreceive.go, messages.go |
| sessions, forward open and close | OpenModel | connect.go, disconnect.go |
| goroutines sharing a client | ConnModel | client.go, connect.go, disconnect.go, sendreceive.go |
| combined errors | ErrModel | errors.go |
| identity, services | IdentModel | listidentity.go, listservices.go, server_listidentity.go |
| timers, counters, controls | LgxModel | lgxtypes |
| server: address of I/O data | AddrModel | server.go L804-815; net.JoinHostPort, net.SplitHostPort |
| structs with lgxtypes members; type handles | KnownModel | pack.go (methods), lgxtypes (TypeAbbr), write_udt |
| listing of tags, programs, templates | ListModel | listalltags.go, listallprograms.go, listsubtags.go, listmembers.go |
| server: connection table | TableModel | server_connections.go |
| server: tag provider | ProvModel | server_router.go (MapTagProvider) |
| server: values | SrvValModel | parseWriteValues, string packing |
| server: requests | SrvModel | server.go, server_connected.go, server_unconnected.go |
| client against server | LinkModel | sendreceive.go with the loop in server.go |
| client opening and closing against server | MeetModel | send_recv_data with the loop in server.go; Disconnect in disconnect.go |
| keep-alive | KeepModel | KeepAlive in connect.go, the start of Disconnect and KeepAliveCancel in disconnect.go |
| project files | L5xModel | load_tags.go, types.go and ParseCData of schema.go in l5x |
| faults, forces, controller properties | CannedModel | canned; GetControllerPropList and Match in getattr.go |
| reading structures | StructModel | Read with a struct, a slice or an any, read.go L294-370 |
| packed reads | PackedModel | ReadPacked, pack.go L389-410; Read with a pointer to a slice, read.go L328-347 |
| a client's connection over its life | LifeModel | Connect, checkConnection in connect.go, Disconnect, send_recv_data; which requests and checks the other methods make |
| how long calls wait | WaitModel | deadlines in sendreceive.go, DialTimeout in connect.go; only waits on the socket take time |
| a client of the built-in server | OwnModel (with AttrModel, ListModel, CannedModel, KeepModel over LinkModel) | firmware in client.go, the keep-alive's question; the calls of a client against the server's side of the same connection |
| serving | ServeModel | NewServer, Serve, serveTCP and the loop of serveUDP, server.go L44-200: ports, listeners, calls of Serve and their goroutines |
| routes | (SrvModel; RouteSpec, RouteProof) | which provider's tags a frame may touch: PathRouter.Resolve, the routes of connections and of Unconnected Sends |
| Unconnected Send | (SrvModel; SendSpec, SendProof) | unconnectedServiceRead and unconnectedServiceWrite against connectedRead and cipConnectedWrite |
| connecting again | (MeetModel; AgainSpec, Prop_Again) | histories of Connect, Disconnect and lost TCP connections against the server |
| leaving the server | (MeetModel, WaitModel; LeaveSpec, Prop_Leave) | forwardClose in server.go with the waits of sendreceive.go |
| AutoConnect | AutoModel, AutoKModel (AutoSpec, AutoProof, Prop_Auto, Prop_AutoS, Prop_AutoW, Prop_AutoK) | Read and Write (also of structures) of a client with AutoConnect over a TCP connection the server ends after a failed request: checkConnection in connect.go, send_recv_data in sendreceive.go, serve in server.go |
| AutoConnect and goroutines | RaceModel (RaceSpec, Prop_Race) | checkConnection, startConnect, startDisconnect and the end of Connect and of a request as steps of several goroutines on one client. A step is one visit of the client's mutex; what the network does within a step is one boolean; the requests themselves are not looked at. |
| Sessions and goroutines | CrewModel (CrewSpec, CrewProof, Prop_Crew) | checkConnection, Connect, send_recv_data and Disconnect (after an error and called by the program) as steps of several goroutines: the status, client.conn, the session handle and which of them each request was built and sent with. A step is one visit of the mutex or one unguarded access; torn accesses are not modelled. One request per call; the Forward Close of Disconnect and the keep-alive are not in it. |
| the router | RouterModel (RouterSpec, Prop_Router) | NewRouter, Handle, Resolve, server_router.go L12-41, alone and used by several goroutines |
| sessions | (SrvModel; SessionSpec, Prop_Session) | registerSession and the header's handle, server.go L209-247, L862-882 |
| replies | (SrvModel; ReplySpec, ReplyProof) | the address, sequence count and service of replies: sendConnectedReply, sendUnitDataReply, sendUnconnectedRRDataReply and their callers |
| goroutines | ConcModel (ConcSpec, ConcProof) | the steps of connectedRead, cipConnectedWrite, connectedMulti, unconnectedServiceRead, unconnectedServiceWrite between locks, the element loads of replies, interleaved by any scheduler; the other SendUnitData services as one step; element loads are taken as atomic |
| shared client | ShareModel (ShareSpec, ShareProof) | newIOI between its lock and unlock with each use of KnownTags and ioi_cache as a stretch of time, firmware(), the stores of a listing, the lookup of a buffer's AddTag, interleaved by any scheduler; an access takes effect when it ends |
| server: class 1 I/O | IoModel | server_io.go, server_iochannel.go; serveUDP, ioConnection in server.go |
### Simplifications

* `strings.ToLower` and `TrimSpace` act on ASCII only.
* Package reflect: values and types are deep embeddings (TypesModel, PackModel);
  unexported fields, pointers, channels, functions and interfaces inside user
  structs are left out, as are fields whose type the code refuses.
* `binary.Write`/`binary.Read` into buffers in memory never fail for lack of
  space; `Pack` writers never fail.
* Sockets: a connection is a byte stream delivered in arbitrary pieces; setting
  a deadline succeeds; the server's socket writes succeed; an expired deadline
  and a closed connection are the same error.
* `checkConnection` and automatic connecting are not part of the read and write
  models: the theorems start from an open connection.  ConnModel treats the body
  of Connect as any outcome.
* Reads of attributes ignore the status in the EIP header, as the code does.
* `firmware()` is a field of the client state; the checksum of github.com/npat-efault/crc16 is an argument. C114 takes it to be CRC-16/ARC, what crc_conf (pack.go L518) asks that package for; the package itself is not modelled.
* Cache and known-tag table are threaded through single requests; a batch uses
  the state at its start (C04 shows that the cache cannot be observed).
* The server: only MapTagProvider as endpoint of tag requests; the provider's lock makes each
  call atomic; one turn of one connection's loop is one step, steps of different
  connections interleave freely; random numbers are an oracle; unknown numeric
  conversions (float to int and such) are arguments (`conv`).
* I/O (IoModel): opening, closing, one datagram, one tick of one connection's
  ticker and one call by the program are each one step, in any order; a step is
  atomic (the providers' locks; the Open flag is read once per tick).  A channel
  is the number of receivers waiting and what was received.
* The keep-alive (KeepModel): every statement that touches a shared field or the
  channel is one step and steps of all goroutines interleave freely; the fields
  are not synchronised in the code, so this assumes the memory is sequentially
  consistent.
* Project files (L5xModel): the tree encoding/xml makes of a file is given, with the
  fields the code looks at; `strconv.ParseFloat` is an argument; maps are lists of
  pairs, and where the code ranges over one the order does not matter.
* Faults (CannedModel): of FaultDescriptions only types and codes, not the texts.
* LinkModel does not follow the closing of the TCP connection after the server
  gives up on a request: the next request starts a new one. AutoModel does.
* Listing: the client's maps are not nil; the iteration order of the server's
  and client's maps is an argument; of a template's header four fields are kept.

### Not modelled

* server.go: failing UDP writes of an I/O goroutine, which are only logged (L855).
* read.go parseArrayStruct, which nothing reaches (readArray is only used with
  scalar types); services.go SizeOf.
* logger.go; String, Name and Error methods that only format text;
  vendors.go, device_type.go.
* The XML decoder and schema of l5x, the examples.

## Findings

Every `_refuted` theorem in the table below is a defect or a limit of the code
with a concrete witness; the notes in MANIFEST.json say which inputs.  Among the
more serious: a controller's reply can crash the client (C55), a peer's request
can crash the server (C45), an oversized tag or an empty partial reply makes a
read recurse or loop for ever (C20, C25), map writes ignore errors (C27) and the
negotiated size (C59), a late reply is handed to the wrong caller (C36), a bit
of a tag is written as a whole (C58), a buffered tag removed shifts the others
(C30, C68), programs listed in several pages lose all but the first (C51).

## Claims

"proved": the English claim as stated.  "partial": weaker, or refuted and proved
under the guard the theorem states.

| id | status | title | theorems |
|----|--------|-------|----------|
| C01 | proved | A tag name is encoded as exactly the path it spells | C01_tag_name_encoding, C01_encoding_injective, C01_known_tag_instance |
| C02 | partial | A server decodes the path a client encodes | C02_server_decodes_path_partial, C02_server_decodes_path_refuted, C02_element_count_40_refuted, C02_decoding_terminates |
| C03 | partial | A malformed tag name is rejected, never turned into a different request | C03_malformed_rejected_refuted, C03_names_never_error_partial |
| C04 | proved | Caching never changes what is sent | C04_cache_transparent |
| C05 | partial | Request paths are whole 16-bit words and their size byte is right | C05_path_words_partial, C05_path_words_refuted |
| C06 | partial | Reading bit n of an integer tag returns bit n | C06_bit_reads_partial, C06_sint_bits_refuted, C06_missing_bit_refuted, C06_bit_above_31_refuted |
| C07 | partial | Route strings denote exactly their port/address bytes | C07_route_bytes, C07_bad_element_is_error, C07_never_panics_refuted, C07_panics_only_on_leading_address_partial |
| C08 | proved | The path builder concatenates segments and keeps the first error | C08_builder_concatenates, C08_builder_keeps_first_error |
| C09 | partial | Class, instance, attribute and element segments round-trip | C09_class_segment, C09_instance_segment, C09_attribute_segment, C09_element_segment_partial, C09_width_announced, C09_readers_never_panic, C09_element_segment_refuted, C09_address_port_len_refuted |
| C10 | proved | Item lists survive the wire | C10_items_round_trip, C10_written_items, C10_oversize_item_refuted |
| C11 | proved | Parsing received item lists is safe | C11_item_parsing_safe |
| C12 | proved | Item cursor reads are exact and fail cleanly | C12_cursor_exact, C12_results_determined |
| C13 | partial | Strings are serialised in fixed slots with a truthful length | C13_string_lists_truthful, C13_string_truthful_partial, C13_string_truthful_refuted |
| C14 | proved | Struct packing round-trips | C14_round_trip, C14_injective |
| C15 | partial | Packed fields are aligned and bools share bytes | C15_layout_partial, C15_disjoint, C15_struct_array_refuted, C15_bool_in_struct_array_refuted |
| C16 | partial | TypeEncode names every member of the packed layout once | C16_type_encode_partial, C16_array_between_bools_refuted, C16_bool_array_refuted, C16_empty_array_refuted |
| C17 | partial | A successful read returns the controller's value; a failed one returns an error | C17_scalar_partial, C17_read_single_partial, C17_array_partial, C17_string, C17_strings, C17_structure_bytes, C17_status_is_error, C17_ulint_refuted, C17_one_element_slice_refuted, C17_one_element_slice_fails, C17_empty_slice_panics |
| C18 | proved | Fragmented reads reassemble the whole tag | C18_fragments_reassembled, C18_structures_refused |
| C19 | proved | A fragmented read surfaces controller errors | C19_fragment_errors_surface |
| C20 | partial | A fragmented read always finishes | C20_fragmented_read_ends_refuted, C20_fragmented_read_ends_partial |
| C21 | partial | List reads cover every tag once, in order | C21_list_read_partial, C21_map_read_partial, C21_short_reply_refuted |
| C22 | partial | Batched requests fit the negotiated connection size | C22_fits_even, C22_fits_within_one_partial, C22_odd_size_refuted, C22_read_multi_refuted |
| C23 | partial | Multi-service requests are well formed | C23_requests_well_formed, C23_batches_well_formed, C23_write_map_well_formed, C23_write_map_any, C23_elements_refuted, C23_big_refuted |
| C24 | partial | Multi-service replies are matched to their tags | C24_replies_matched, C24_error_fails, C24_error_reported, C24_untyped_struct_refuted |
| C25 | partial | Reading a set of tags terminates even when one does not fit | C25_read_ends_partial, C25_oversized_tag_refuted |
| C26 | partial | Reading into a struct fills every tagged field with its own tag's value | C26_fields_filled_partial, C26_duplicate_refuted |
| C27 | partial | Writes report controller errors | C27_write_reports, C27_success_confirmed, C27_udt_reports, C27_transport_reported, C27_write_map_refuted |
| C28 | partial | A batch write names every leaf once | C28_one_write_per_leaf_partial, C28_arrays_dropped_refuted, C28_slice_refuted, C28_struct_in_map_refuted |
| C29 | proved | Bool arrays are unpacked word by word, low bit first | C29_bool_array, C29_bad_length_refused |
| C30 | partial | Buffered tags have distinct slots | C30_distinct_partial, C30_remove_refuted, C30_number_wraps |
| C31 | partial | A buffer read hands each tag its own bytes | C31_created, C31_raw_partial, C31_values_partial, C31_bit_refuted, C31_long_string_refuted, C31_many_refuted, C31_empty_sync_refuted |
| C32 | partial | Closing a buffer is idempotent and final | C32_close_partial, C32_close_sends, C32_sync_refuted |
| C33 | partial | Tag groups expand arrays and names predictably | C33_counts, C33_names_partial, C33_names_refuted, C33_elements_partial, C33_elements_distinct, C33_plain_refuted |
| C34 | partial | Typed accessors never return a value of the wrong type | C34_scalars, C34_slices, C34_uint32_partial, C34_uint32_refuted |
| C35 | proved | At most one connect or disconnect is in progress | C35_one_at_a_time |
| C36 | partial | Concurrent requests get their own replies | C36_own_reply_partial, C36_reply_parsed, C36_late_reply_refuted |
| C37 | proved | Session request parameters carry the requested size | C37_open_parameters |
| C38 | partial | Sequence counts differ between nearby requests | C38_counts_differ_partial, C38_plain_requests, C38_attr_list_refuted |
| C39 | partial | Frames are self-delimiting | C39_frames_partial, C39_incomplete, C39_sent_whole, C39_server_takes_frame_partial, C39_long_refuted, C39_server_ignores_length_refuted, C46_unknown_command_refuted |
| C40 | proved | The server's connection table behaves like a map of open connections | C40_table, C40_lookup, C40_count |
| C41 | partial | The map tag provider behaves like an array-aware map | C41_history_partial, C41_read_partial, C41_last_write, C41_coerced, C41_shared_refuted |
| C42 | partial | Server string replies are fixed-size and truthful | C42_slot, C42_client_reads, C42_array_refuted |
| C43 | partial | The server stores what the client wrote | C43_values_partial, C43_strings_refuted, C43_long_string_refuted, C43_bools_refuted |
| C44 | partial | Write then read through the server returns the value | C44_scalar_partial, C44_element_partial, C44_array_partial, C44_read, C44_narrowing_refuted, C44_new_array_refuted, C44_count_refuted, C44_bit_refuted |
| C45 | partial | No request can crash the server | C45_no_crash_partial, C45_serve_ends_partial, C45_write_nothing_refuted, C45_read_many_refuted, C45_index_first_refuted, C45_multi_offset_refuted, C45_open_refuted, C45_io_interval_refuted, C45_embedded_refuted, C45_nil_tag_refuted |
| C46 | partial | Every request is answered once, to its sender's context | C46_one_reply_partial, C46_handle_kept, C46_close_unanswered_refuted, C46_unknown_command_refuted |
| C47 | partial | Server multi-service replies are self-consistent | C47_multi_partial, C47_refuted, C47_service_refuted, C47_string_refuted |
| C48 | proved | Identity data round-trips between server and client | C48_identity, C48_missing, C48_device |
| C49 | partial | Timer, counter and control structures round-trip | C49_layout, C49_counter, C49_control, C49_timer_partial, C49_timer_refuted, C49_unpack, C49_short |
| C50 | partial | Listing tags collects every tag regardless of paging | C50_tags_partial, C50_programs_partial, C50_single_refuted, C50_fallback_refuted, C50_error_refuted |
| C51 | partial | Listing a program returns every tag of it | C51_tags_partial, C51_page_partial, C51_pages_refuted, C51_ends_refuted |
| C52 | partial | Browse instance numbers are stable | C52_numbers, C52_stable, C52_bijection, C52_keys, C52_listing, C52_read_partial, C52_wide_refused, C52_many_refuted, C52_case_refuted, C52_array_refuted |
| C53 | partial | Attribute reads report controller errors | C53_generic_reports, C53_generic_confirmed, C53_list_reports, C53_single_refuted, C53_single_data_partial |
| C54 | partial | Combined errors can be inspected safely | C54_membership_partial, C54_added_found, C54_empty_refuted, C54_unwrap_ends, C54_text |
| C55 | partial | No controller reply crashes the client | C55_extra_reply_refuted, C55_bad_offset_refuted, C55_long_string_refuted, C55_read_multi_short_refuted, C55_write_reply_refuted, C55_write_only_short_crashes, C55_attr_reply_refuted, C55_connect_reply_refuted, C55_connect_only_short_crashes, C55_list_only_bad_entry_crashes, C55_map_only_bad_entry_crashes, C55_single_refuted, C55_single_only_long_string_crashes, C55_attr_only_short_crashes |
| C56 | partial | Reading into a struct reports type mismatches | C56_type_mismatch_refuted, C56_one_element_slice_refuted, C56_only_mismatch_crashes_partial |
| C57 | partial | Slices of structs unpack element by element | C57_slice_partial, C57_slice_struct_array_refuted |
| C58 | partial | A single write sends exactly one Write Tag request for the value | C58_write_sends_partial, C58_udt_sends, C58_bit_refuted, C58_bool_slice_refuted |
| C59 | partial | Batch writes respect the connection size | C59_size_partial, C59_write_map_refuted |
| C60 | partial | Attribute and generic requests address exactly the named object | C60_single_sends, C60_list_sends, C60_generic_sends, C60_long_path_refuted |
| C61 | partial | A tag group read returns each definition's value | C61_group_read_partial, C61_bool_array_refuted |
| C62 | partial | A group read from a buffer comes back whole | C62_typed_partial, C62_plain_refuted, C62_shared_refuted |
| C63 | partial | Open and close requests announce exactly their route | C63_route_counted_partial, C63_close_route_counted_partial, C63_odd_address_refuted, C63_long_route_refuted |
| C64 | proved | Disconnect closes the connection Connect opened | C64_close_names_open |
| C65 | proved | Connect succeeds exactly when the controller grants an open request | C65_success_granted, C65_granted_succeeds |
| C66 | partial | A value read from the provider is a snapshot | C66_snapshot_partial, C66_element_refuted |
| C67 | partial | Writing n values at name[i] fills elements i to i+n-1 | C67_one_element_partial, C67_range_write_refuted, C67_nested_refuted |
| C68 | partial | RemoveTag removes the tag it names | C68_remove_partial, C68_after_removal_refuted |
| C69 | partial | Listing services returns the services the device offers | C69_device_partial, C69_server_refuted |
| C70 | partial | Listing a template's members | C70_members_partial, C70_unknown, C70_name_refuted, C70_empty_refuted, C70_cut_refuted |
| C71 | partial | Writes by instance number reach the numbered tag | C71_write_partial, C71_array_refuted |
| C72 | partial | Batched reads of the built-in server return its values | C72_list_partial, C72_map_partial, C72_scalars_partial, C72_struct_partial, C72_long_refuted, C72_strings_refuted |
| C73 | partial | WriteMap to the built-in server stores every entry | C73_outcome_partial, C73_values_partial, C73_half_refuted, C73_string_refuted |
| C74 | partial | Unpack reads what a controller sends | C74_reads_partial, C74_unique_partial, C74_short_partial, C74_sound_partial, C74_typed, C74_struct_array_refuted, C74_short_refuted, C74_byte_bool_refuted |
| C75 | partial | Output data received over class 1 I/O | C75_delivers_partial, C75_confined, C75_only_datagrams, C75_stale_refuted, C75_cut_refuted, C75_short_refuted |
| C76 | partial | Input data sent over class 1 I/O | C76_opens, C76_ticks_partial, C76_nothing_else, C76_numbered_partial, C76_closed, C76_hangup_refuted, C76_interval_refuted |
| C77 | partial | Output data handed out through channels | C77_delivers_partial, C77_in_order, C77_starved_refuted |
| C78 | partial | Variables given to a tag buffer hold the controller's values | C78_filled_partial, C78_any_order, C78_confined, C78_subscript_refuted, C78_single_refuted, C78_array_refuted, C78_value_refuted, C78_embedded_refuted, C78_twice_refuted, C78_typed |
| C79 | partial | Connecting to the built-in server gives a usable session to the tags at the client's route | C79_connects_partial, C79_read_partial, C79_numbers, C79_others, C79_same_time_refuted, C79_no_route_refuted |
| C80 | partial | Disconnecting from the built-in server closes that connection and no other | C80_closes_partial, C80_others, C80_nothing_left, C80_round, C80_other_refuted |
| C81 | partial | The keep-alive never brings the program down | C81_no_crash_partial, C81_reconnect_refuted, C81_cancel_idle_refuted, C81_cancel_refuted, C81_two_refuted |
| C82 | proved | The keep-alive re-reads the tags exactly when the controller has changed | C82_watches, C82_every_tick |
| C83 | partial | KeepAliveAutoStart keeps every connection alive | C83_started_partial, C83_second_refuted, C83_list_refuted |
| C84 | partial | ReadMulti with arguments reads the tags its templates name | C84_args_partial, C84_embedded_refuted, C84_embedded_last_panics, C84_unexported_panics |
| C85 | partial | LoadTags gives every tag of a project file its value | C85_loaded_partial, C85_controller_structure_refuted, C85_controller_array_refuted, C85_nested_refuted, C85_string_refuted, C85_byte_refuted, C85_unsigned_refuted, C85_decorated_only_refuted, C85_dimensions_refuted, C85_out_of_range, C85_radix_refuted |
| C86 | partial | Every project file can be loaded | C86_loads_partial, C86_only_these_load, C86_no_section_crashes, C86_program_refuted, C86_dimension_refuted |
| C87 | partial | LoadRungComments has every rung comment at its place | C87_rungs_partial, C87_edits_refuted, C87_quote_refuted, C87_no_tasks_crashes |
| C88 | partial | LoadTagComments describes tags, all their members and module points | C88_tags_partial, C88_program_refuted, C88_alias_refuted, C88_bit_refuted, C88_type_refuted, C88_recursive_refuted, C88_no_modules_crashes |
| C89 | proved | GetFaults returns the controller's fault summary | C89_reports, C89_confirmed |
| C90 | partial | Fault type methods report the faults there are | C90_powerup_partial, C90_bit_below, C90_other_refuted, C90_io_refuted |
| C91 | partial | A fault is described as what it is | C91_description_partial, C91_diagnostic_refuted |
| C92 | partial | GetForces tells whether forces exist and are enabled | C92_word_partial, C92_exist_refuted, C92_status_refuted |
| C93 | proved | GetControllerPropList and Match tell whether the controller has changed | C93_properties, C93_match |
| C94 | partial | Reading a structure gives the controller's value or an error | C94_struct_partial, C94_slice_partial, C94_natural, C94_any, C94_sound_partial, C94_slice_sound_partial, C94_no_crash, C94_by_value_refuted, C94_small_members_refuted, C94_any_slice_crashes |
| C95 | partial | A client leaves no socket behind | C95_open_sockets, C95_partial, C95_disconnect, C95_refused_refuted |
| C96 | partial | Without a connection a call returns an error | C96_partial, C96_list_crashes, C96_write_map_crashes, C96_read_map_refuted, C96_recovered_hangs |
| C97 | partial | AutoConnect reconnects by itself | C97_reconnects_partial, C97_off, C97_sound, C97_write_map_refuted |
| C98 | partial | A client gets the attributes of the built-in server's identity | C98_single_partial, C98_firmware_partial, C98_all_partial, C98_missing_hangup, C98_generic_fails, C98_missing_refuted, C98_generic_refuted |
| C99 | partial | A client lists the tags of the built-in server | C99_empty_partial, C99_fails, C99_refuted |
| C100 | partial | What the built-in server does not offer is an error and no more | C100_service_partial, C100_list_partial, C100_canned_partial, C100_buffer_partial, C100_keep_alive_fails, C100_keep_alive_refuted |
| C101 | partial | Serve opens both ports or neither, serves, and returns when it cannot | C101_taken_partial, C101_opens_partial, C101_accepts_partial, C101_closed_partial, C101_never_returns, C101_returns_refuted, C101_udp_fails, C101_retry_fails, C101_retry_refuted, C101_twice_crashes, C101_twice_refuted |
| C102 | partial | A server forgets the connections of a client that is gone | C102_hangup_partial, C102_grows, C102_anyone, C102_refuted |
| C103 | partial | A request acts on the tags of its route | C103_frame, C103_course, C103_attribute_refuted, C103_hops_refuted |
| C104 | partial | An Unconnected Send does what a connected request does | C104_same_partial, C104_odd_fails, C104_odd_refuted, C104_told_refuted |
| C105 | partial | A reply names the connection and service it answers | C105_connected_partial, C105_unconnected, C105_last_opened, C105_attribute_service, C105_address_refuted, C105_service_refuted |
| C106 | partial | Overlapping requests act as at one moment | C106_moment_partial, C106_unconnected_partial, C106_alone, C106_array_refuted |
| C107 | partial | A multiple service request is done in one go | C107_in_turn_partial, C107_refuted |
| C108 | partial | One client can be used by several goroutines | C108_answer, C108_goes_on, C108_no_clash_partial, C108_one_listing_partial, C108_refuted, C108_listings_refuted, C108_buffer_refuted |
| C109 | partial | Removing tags from a buffer leaves the others alone | C109_raw_partial, C109_values_partial, C109_refuted, C109_wrong_tag_refuted, C109_unsent_refuted |
| C110 | partial | A listed tag is addressed as the tag of that name | C110_listed_partial, C110_agreeing_partial, C110_stale_refuted |
| C111 | partial | Calls come back in time | C111_single_partial, C111_several_partial, C111_unknown_partial, C111_names_refuted |
| C112 | proved | A client keeps one path for each name | C112_one_each, C112_again |
| C113 | partial | ReadPacked and pointers to slices read what the plain calls read | C113_packed_crashes, C113_packed_fails, C113_packed_refuted, C113_pointer_partial, C113_longer_slice_fails, C113_slice_refuted, C113_only_structs |
| C114 | partial | Structs with TIMER, COUNTER, CONTROL and STRING members are exchanged as Logix holds them | C114_layout_partial, C114_reads_partial, C114_round_trip_partial, C114_round_trip_refuted, C114_array_refuted, C114_array_read_refuted, C114_description_partial, C114_write_partial, C114_read_partial |
| C115 | partial | Nested structures take whole words as in the controller | C115_reads_partial, C115_layout_partial, C115_length_partial, C115_reads_refuted, C115_layout_refuted, C115_length_refuted |
| C116 | partial | Cyclic data goes to where the connection came from | C116_v4_partial, C116_v6_fails, C116_refuted |
| C117 | partial | Structures written to the built-in server | C117_string_partial, C117_string_stored, C117_string_read, C117_element_partial, C117_any_read, C117_other_fails, C117_rest_refuted, C117_length_refuted, C117_collision_refuted |
| C118 | partial | What browsing says of the type of a tag | C118_atomic, C118_browsed_partial, C118_predefined_partial, C118_code_partial, C118_bool_refuted, C118_structure_refuted, C118_code_refuted |
| C119 | partial | Size of a structure description | C119_last_partial, C119_array_refuted, C119_nested_refuted |
| C120 | partial | Replies to batched reads fit the connection | C120_short_partial, C120_elementary_partial, C120_values_partial, C120_refuted, C120_texts_refuted, C120_structures_refuted |
| C121 | partial | Type sizes agree with decoding | C121_size_partial, C121_buffer_partial, C121_text_refuted, C121_ulint_fails |
| C122 | partial | Browsing survives whatever the controller answers | C122_browse_partial, C122_browse_refuted, C122_name_refuted, C122_recursion_refuted, C122_identity, C122_canned_partial, C122_buffer_partial |
| C123 | partial | A tag addressed with the path builder | C123_path_partial, C123_read_partial, C123_write_partial, C123_symbolic_refuted, C123_subscript_refuted, C123_element_refuted |
| C124 | partial | Only registered sessions are served | C124_ignored, C124_registration, C124_kept, C124_unregistered_refuted, C124_shared_refuted, C124_farewell, C124_farewell_refuted |
| C125 | partial | A registered route leads to the endpoint last registered for it | C125_last, C125_switch, C125_before_serving_partial, C125_refuted |
| C126 | proved | Connecting again always works when all clients use one route | C126_again, C126_read |
| C127 | partial | Leaving the built-in server is prompt | C127_silent, C127_unknown_partial, C127_waits_fails, C127_refuted |
| C128 | partial | One failed read does not spoil the next | C128_recovers_partial, C128_slices_partial, C128_steady, C128_next_fails, C128_any_request, C128_refuted |
| C129 | partial | A write is done exactly when it returns nil | C129_write_partial, C129_string_partial, C129_other_partial, C129_next, C129_next_read, C129_string_next, C129_other_next, C129_unreached, C129_routes_refuted |
| C130 | partial | AutoConnect works for several goroutines | C130_begun_partial, C130_one_partial, C130_alone, C130_recovers_partial, C130_others_fail, C130_refuted, C130_honest |
| C131 | partial | Requests name the session of their connection | C131_alone, C131_works_partial, C131_bounded_partial, C131_all_foreign, C131_session_refuted, C131_ended_refuted, C131_quit_refuted |
| C132 | partial | A failed reconnection does not crash other calls | C132_dials_partial, C132_crashes, C132_refuted, C131_alone |
| C133 | proved | A connection that was ended stays ended | C133_ended |
| C134 | partial | Several elements of an array of strings of the built-in server | C134_sent, C134_one_partial, C134_second_wrong, C134_crashes, C134_slice_refuted |
| C135 | partial | Arrays of strings written to the built-in server | C135_second_wrong, C135_empty_partial, C135_refuted |
