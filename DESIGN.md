# Formal model of stampzilla/gozwave in Rocq (Coq 8.16.1)

## Method

* `/verif/rocq/theories/Model*.v`: executable Gallina model, function by function, every definition citing the Go
  lines it models. No proofs there (except obligations-free computation).
* `/verif/rocq/theories/Spec*.v`: small independent specifications (framing grammar, bit/integer meaning of payloads,
  trace predicates) that do not mention model helpers.
* `/verif/rocq/theories/Proof*.v`: lemmas.
* `/verif/rocq/theories/Prop*.v`: only property theorems (`Theorem C..`), each closed by `exact`, with
  `Print Assumptions` and a non-vacuity `Example` beside it.

Conventions
* Bytes are Coq's `Byte.byte` (every inhabitant is a legal byte, so no well-formedness hypotheses are needed).
* A Go slice is its elements plus the bytes in its spare capacity (`slice`), because `data[a:b]` checks against
  *capacity* and `append` writes in place when capacity allows. Both matter in this code.
* A panic is a value (`Panic`); nil pointers are `None`; errors are values.
* Goroutines, channels, timers and map iteration order are explicit labels of an executable step function; theorems
  quantify over all label lists.
* float64 is `spec_float` (Coq stdlib `SpecFloat`, binary64 = precision 53, emax 1024).
* Where the code violates a property the user relies on, the full statement stays in `properties.jsonl`, a
  `..._refuted` theorem gives the witness, and a `..._partial` theorem proves the part that does hold.

## Plan per property

| id | modelled | proof |
|----|----------|-------|
| C01 | `CompileMessage`, `GenerateChecksum` | list algebra + XOR laws; refutation for >253 |
| C02 | `Decode` framing | case analysis against an independent grammar |
| C03 | `Decode` | XOR cancellation |
| C04 | `Decode`+`NewMessage`+payload decoders with panics | refuted by witnesses; safe-frame theorem; exact panic conditions |
| C05 | `Decode` write-through of `append` | refuted; exact effect (only the checksum position, set to 0) |
| C06 | as C04 | refuted in general; proved for self-contained frames |
| C07 | reader inner loop over slices | induction over frames and chunks |
| C08 | reader inner loop | refuted (noise byte 0x01); proved for noise without start bytes |
| C09 | reader inner loop | strong induction on buffer length |
| C10, C11 | connection state machine, trace of effects | invariant over label lists |
| C12 | `NewDiscoverdNodes` | induction over bitmap; panic for >= 30 bytes |
| C13 | `NewGetNodeProtocolInfo` | bit lemmas over all bytes (finite domain, lifted) |
| C14, C15, C20, C21 | `reports.New` and constructors | case analysis / arithmetic |
| C16 | sensor decoding in `spec_float` | Flocq correctness of division and rounding |
| C17 | same | refuted; characterisation |
| C18 | state key strings | finite domain 256x4, lifted |
| C19 | `Duration` | finite domain lifted; formatting |
| C22 | `SetValue` on `spec_float` | order/truncation arithmetic |
| C23, C24, C25, C26 | encoders, `HasCommand`, endpoints | computation, induction over class lists; C24, C26 refuted |
| C27, C28 | `Match` with index panics | exact characterisation; refutations |
| C29-C37 | connection state machine (callers, writers, reader, timers, resends, reconnects) | invariants over all label lists; C33, C35, C36, C37 refuted as stated |
| C38 | connect state machine | refuted; partial |
| C39-C41 | event queue, debouncer as step functions | invariants over histories |
| C42 | `getNodes` | induction over bitmap |
| C43, C45 | JSON text (bytes of the file), marshal/unmarshal | round trip by induction; C45 refuted, exact set of crashing documents |
| C44 | file operations with crash points | refuted; partial (exact contents at every crash point) |
| C46-C48 | `ProcessEvent`, alarm windows, awake channel | invariants over interleavings; second half of C47 refuted |
| C49-C52 | `Identify` as program-counter machine | invariants; C50 refuted; C51 explicit bound |
| C53, C54 | node list; RWMutex copy | induction; C54 refuted by schedule |
| C55 | all 706 devices imported as data | finite check lifted to all triples via injectivity of hex |
| C56, C57 | mandatory table, generator, text | permutation argument; finite check of the committed files |
| C58, C59 | converter, recorder | induction over rows/schedules; refutations |
| C60, C61 | name tables | string lemmas; finite domain |
| C62 | alarm reports | case analysis |
| C63-C66 | connection machine, reader | refutations with schedules; invariants for the safe part |
| C67, C69 | `ProcessEvent` | case analysis; refutations |
| C68 | list lock machine | refuted; Adds exclude each other |
| C70 | generator | refuted; partial |
| C71 | `Identify` | refuted; the node is never identified |
| C72-C75 | controller, start-up machine | refutations with schedules; partial |
| C76, C77 | recorder machine, gob abstraction | refuted; partial |
| C78-C80 | configuration file | invariants, file machine; C79, C80 refuted |
| C81 | contents of decoded messages | functional, against `SpecMessage` |
| C82, C83 | overlapping map accesses | goroutines as sequences of lock operations and accesses; both refuted, overlaps characterised |
| C84, C85 | losing the port | port layered over the connection machine; both refuted |
| C86 | scales of sensor readings | finite domain; refuted for scales without a unit |
| C87-C91 | generator of the device table | order and escaping by induction; the committed files by computation |
| C92-C94 | controller layered over the connection machine | invariants over all interleavings; C92, C94 refuted by schedules |
| C95 | connection machine | invariant: a written, unanswered request is still pending |
| C96 | connection machine | measure on the writers; enabledness from the invariant |
| C97 | connection machine | the buffer as the end of what arrived since the last cut; refuted by a zeroed checksum place |
| C98 | controller machine | invariant: every queued event names a known node |
| C99 | example program | functional; refuted for nodes without a switch class |
| C100-C103 | identifications layered over controller and connection | every run projects to one of `ModelSystem`; invariant: where each fact about a node came from; C101, C103 refuted by schedules |
| C104-C107 | starts, kills, saves and edits of the file around the whole program | invariant over all runs: what is known can be written and read back; the file is a prefix of one save; C104, C106 refuted by runs |
| C108 | identifications layered over controller and connection | C95 for the delivery; invariant: each request was made with the report its stage needs |
| C112, C113 | identifications layered over controller and connection | an execution to the end is constructed from every state: first everything that is under way in the connection is let out, then one answer at a time; C113 refuted by a schedule, and the exception is exact |
| C116, C117 | identifications layered over controller and connection | C112 for one node after the other: the constructed executions move only the identification of their node, and an identification that has not begun, or has returned, is not touched by what happens to others; before that the discovery, step by step |
| C118, C119 | identifications layered over controller and connection | `grows` relates a node at two moments; every step of controller, node and identification is shown to keep it. A request is only sent from a place in Identify where the answer is not known, and by C118 it was then not known earlier either. Identify is started at most once per node: the discovery goes through the ids upwards |
| C120, C121 | identifications layered over controller and connection | every step that changes what is `shown` of a node publishes an update event about it; an event that is published and not dropped is received or waiting; each event asks for a save, and a request for a save is only used up by starting the timer, which only ends in a save |
| C122 | controller | invariant on the published events: announced nodes are in the list, nodes in the list are of the file, announced or just added, and only nodes that were set up, after their announcement, publish updates |
| C114, C115 | generator of the device table, parameters | numbers and texts read back from the source; the committed table by computation; C115 refuted by a committed file |
| C109, C110 | texts of reports, read back field by field | symbolic reading: literals are compared, values have no spaces; bytes by enumeration |
| C111 | text of sensor readings | error of the division (C16) plus error of the rounding to six decimals is less than one millionth; integers |

## Files

| file | contents |
|------|----------|
| `ModelBase` | bytes, results with errors and panics, slices with spare capacity |
| `ModelReports`, `ModelSerial`, `ModelCommands` | packages commands/reports, serialapi, commands |
| `ModelText` | `String` methods of the reports |
| `ModelNodes`, `ModelList`, `ModelIdentify` | package nodes: node, reports, alarm windows, wake-up channel; the list and its lock; Identify |
| `ModelConnection` | connection.go as a state machine |
| `ModelPort` | the port under the connection: opening fails, writes to a closed or nil port |
| `ModelAccess` | lock operations and map accesses of the goroutines, with their duration |
| `ModelController` | controller.go without the file; gozwave.go start-up |
| `ModelSystem` | the controller on top of the connection: what the callbacks and the node-list request exchange |
| `ModelWhole` | the whole program: `ModelSystem` with one goroutine of Identify per node |
| `ModelLife` | the program from one start to the next: the file, starts, kills, saves, edits by others |
| `ModelJson`, `ModelConfig` | encoding/json for the types involved; saving and loading |
| `ModelDatabase`, `Data*` | database lookups, generator of the mandatory table; the literal tables (generated by `tools/gen_database.py` from /repo) |
| `ModelGenerator`, `DataFiles` | generators/database and the reading of its output by the compiler; the files of database/json (generated by `tools/gen_files.py` from /repo) |
| `ModelParameters`, `DataParameters` | the parameters of the devices in the generator, in the files and in database/devices.go (generated by `tools/gen_parameters.py` from /repo) |
| `ModelExample` | zwave-example: the handlers of the web server, the loop over the events |
| `ModelRecorder` | package serialrecorder, cmd/serialrecordingtohex |
| `Spec*` | vocabulary of the theorem statements |
| `Proof*` | lemmas |
| `Prop*` | the property theorems, nothing else |

`tools/mutate.py` edits a scratch copy of the model, rebuilds it and says which theorems fail. The edits tried are
in `seeded/mutants/`, the results in `seeded/LOG.jsonl`.

## What is modelled and what is not

Modelled, function by function (the comment at each definition cites the lines):

* serialapi: `CompileMessage`, `GenerateChecksum`, `Decode`, `NewMessage`, `NewApplicationCommandHandler`,
  `NewDiscoverdNodes`, `NewGetNodeProtocolInfo`, `Raw.Encode`, the names of functions.
* commands: `SwitchBinary`, `SwitchMultilevel`, `Raw`, `MultiChannelEncap`, `Duration`, the names of commands;
  commands/reports: `New`, every constructor and every `String` method.
* connection.go: everything except logging.
* nodes: everything except logging: `ProcessEvent`, `isAwake`, `Identify` and its requests, commands, endpoints, the list,
  the JSON methods.
* controller.go, gozwave.go: everything except logging.
* database: the lookups, and all 706 devices and the mandatory table as data; generators/commandclasses;
  generators/database on the files of database/json as data (as decoded by encoding/json), with the parameters of the devices.
* serialrecorder, cmd/serialrecordingtohex: everything except the text of the printed lines.
* zwave-example: the handlers (status and commands sent) and the loop over the events, with `strconv.Atoi`; not the
  routing and the bodies of the answers.

Not modelled: log output; the tests; the serial port itself (bytes arrive and leave, opening succeeds or fails).

Simplifications. Each is repeated at the definition it concerns.

* Scheduling. Statements between two blocking operations or lock operations run as one step where nothing else can
  observe the difference. Exceptions that matter are split: the test and the return in `isAwake`, the hand-over of a
  package and the later read of its reply channel, the clearing of `lastCommand`, discovery's Add / event / Setup.
  `LVisit` (one pass of the loop over pending requests for a control byte) and `deliver` (the loop under the
  connection lock) are one step each. Copying a struct is one step.
* Time is not measured except in the debouncer. Timers fire at any moment after they were started, which includes all
  real runs. C41_quiet_is_saved assumes that blocked goroutines get their turn (`prompt`).
* `IWindow` (end of an alarm window) may happen at any time during identification; `CIdent` lets Identify change its
  node in any way at the level of the controller. Both allow more runs than the code has. `ModelWhole` restricts `CIdent`
  to what Identify does; there the wake-up channel of a node is created by its own Identify only.
* The list-lock machine leaves out the locks of the nodes.
* Pointers inside slices are taken to be non-nil, except in the configuration reader, where nil elements are modelled.
* The Go compiler is modelled as far as the generated source needs it: string literals, byte constants, distinct
  cases and function names.
* math.Pow(10, p) for 0 <= p <= 7 is exact. Formatting of floats is a parameter of the configuration writer with the
  hypothesis that reading the text gives the number back; C43_formatter_exists shows that the hypothesis can be met.
* encoding/json: the limit of 10000 nested values is left out, and so is the reuse of old slice elements beyond the length when a key
  is repeated. strings.TrimSpace and ToLower are modelled for ASCII; html/template escaping is left out.
* Saving: MarshalIndent is one step. The code marshals without locking the nodes, a data race that is not modelled
  (C83). The load of the existing file at the start of a save is left out of `ModelConfig`; `ModelLife` has it: its result is
  never used, but it can panic.
* Starting: a file whose nodes have null command classes is loaded by the code and not followed further by `ModelLife`; such a
  file is never written by the program. That an existing file cannot be opened for reading is left out.
* gob: a stream is a sequence of type descriptions and rows. `Encode` writes its row as a whole.
* Memory: slices carry their spare capacity where the code depends on it (`Decode`, the receive buffer). Elsewhere they
  are values.

## Trusted base

* Coq 8.16.1's kernel, and `vm_compute` for the tables. No kernel check is switched off.
* The reading of the Go source recorded in the comments of the model, and the simplifications above.
* The translation of the tables by `tools/gen_database.py`.
* For the theorems listed with axioms below: the axioms of the standard library's real numbers. They come in through
  Flocq, which is used to relate `spec_float` to real numbers. Flocq itself adds no axioms.

### What Print Assumptions lists

321 theorems; 307 are closed under the global context (no axioms at all).

Axioms `ClassicalDedekindReals.sig_forall_dec`, `ClassicalDedekindReals.sig_not_dec`, `Classical_Prop.classic`, `FunctionalExtensionality.functional_extensionality_dep`:

`C22_level_sent`, `C25_level`, `C43_formatter_exists`, `C78_storable`, `C104_file_does_no_harm_refuted`, `C104_own_file_does_no_harm_partial`, `C105_saves_can_be_loaded`, `C106_saved_nodes_survive_refuted`, `C106_saved_nodes_survive_partial`, `C107_no_mixture`, `C16_sensor_value_nearest`, `C111_reading_is_shown`, `C111_reading_is_exact`

Axioms `ClassicalDedekindReals.sig_forall_dec`, `FunctionalExtensionality.functional_extensionality_dep`:

`C22_level_determined`

Closed under the global context:

`C82_pending_table_refuted`, `C82_only_control_bytes_partial`, `C82_frames_partial`, `C83_saving_refuted`, `C83_only_saving_partial`, `C83_reports_partial`, `C122_announced_once`, `C122_known_is_announced`, `C122_announced_first`, `C108_type_is_used`, `C108_product_is_used`, `C108_endpoints_are_used`, `C18_sensor_types_kept_apart`, `C18_units_kept_apart`, `C18_reserved_keys`, `C23_encapsulation`, `C23_recoverable`, `C23_short_panics`, `C24_raw_length_refuted`, `C24_raw_length_partial`, `C25_on_off`, `C25_wire_frames`, `C26_endpoint_addressing_refuted`, `C26_endpoint_addressing_partial`, `C26_endpoint_commands`, `C86_scales_kept_apart_refuted`, `C86_scales_kept_apart_partial`, `C112_answers_complete_identification`, `C113_identification_can_end_refuted`, `C113_identification_can_end_partial`, `C113_lost_never_ends`, `C43_roundtrip`, `C44_refuted`, `C44_partial`, `C45_refuted`, `C45_partial`, `C45_field_name_partial`, `C45_null_free_partial`, `C45_syntax_partial`, `C78_new_node`, `C78_written`, `C78_nonfinite_empties_file`, `C79_refuted`, `C79_partial`, `C80_refuted`, `C80_partial`, `C27_match_never_panics_refuted`, `C27_match_decision_partial`, `C27_match_total_partial`, `C28_info_response_to_one_request_refuted`, `C28_delivery_answers_request_partial`, `C29_one_message_then_one_close`, `C29_only_open_channels`, `C30_timer_closes_open_requests`, `C31_stop_and_wait_refuted`, `C31_stop_and_wait_partial`, `C32_wire_order`, `C32_queued_once`, `C32_wire_bytes`, `C33_cancelled_is_resent_refuted`, `C33_cancelled_is_resent_partial`, `C33_all_resent_partial`, `C34_nak_fails_only_its_command`, `C34_visit_effect`, `C34_start_end_effect`, `C35_report_wait_crash_refuted`, `C35_decoded_frames_do_not_crash_partial`, `C36_pending_table_bounded_refuted`, `C36_timed_entries_expire_partial`, `C37_one_writer_refuted`, `C37_outstanding_bound_partial`, `C38_connected_means_open_refuted`, `C38_connected_means_open_partial`, `C63_match_on_own_bytes_refuted`, `C63_match_on_own_bytes_partial`, `C64_issuer_gets_its_channel_refuted`, `C64_issuer_gets_its_channel_partial`, `C65_coalesced_control_byte_refuted`, `C65_lone_control_byte_safe_partial`, `C39_queue_is_fifo`, `C39_publishing_never_blocks`, `C40_all_announced_refuted`, `C40_announced_partial`, `C40_all_known`, `C41_save_needs_new_update_refuted`, `C41_saves_bounded_partial`, `C41_saves_apart`, `C41_no_file_no_save`, `C41_quiet_is_saved`, `C42_discovery`, `C42_discovery_ends`, `C72_discovery_retried_refuted`, `C72_discovery_once`, `C73_report_during_discovery_refuted`, `C73_no_crash_partial`, `C74_port_opened_after_failure_refuted`, `C74_result_partial`, `C75_success_means_open_refuted`, `C75_opened_before_partial`, `C55_found_has_ids`, `C55_each_device_reachable_once`, `C55_report_to_device`, `C56_mandatory_lookup`, `C56_all_rows_present`, `C57_table_is_generated`, `C60_names_refuted`, `C60_names_partial`, `C60_recognised_is_mentioned`, `C60_unrecognised_mentions_nothing`, `C61_function_names_differ`, `C61_command_names_differ`, `C61_function_constants`, `C61_command_constants_refuted`, `C61_command_constants_partial`, `C70_final_blank_refuted`, `C70_final_blank_partial`, `C98_events_name_nodes`, `C98_example_loop`, `C99_control_refuted`, `C99_node_answer`, `C99_control_answer`, `C99_control_partial`, `C99_nothing_else`, `C99_names_unique`, `C01_compile_wellformed`, `C01_compile_injective`, `C01_compile_too_long`, `C02_grammar_total`, `C02_decode_classifies`, `C02_decode_results`, `C03_single_byte_damage_rejected`, `C04_decode_never_panics_refuted`, `C04_decode_panics_iff_partial`, `C04_self_contained_frames_safe_partial`, `C05_decode_preserves_buffer_refuted`, `C05_decode_effect_partial`, `C06_decode_local_refuted`, `C06_self_contained_local_partial`, `C81_message_of_frame`, `C81_header`, `C81_control`, `C87_table_up_to_date`, `C87_lookup_sound`, `C87_lookup_complete`, `C87_every_reference_found`, `C88_text_kept_refuted`, `C88_text_kept_partial`, `C89_compiles_refuted`, `C89_compiles_partial`, `C89_functions_distinct_partial`, `C90_agrees_with_files_refuted`, `C90_agrees_with_files_partial`, `C91_all_endpoints_refuted`, `C91_all_endpoints_partial`, `C49_identified_is_complete`, `C49_returned_is_identified`, `C49_requests_in_order`, `C50_database_classes_refuted`, `C50_classes_partial`, `C50_names_kept`, `C51_completes_refuted`, `C51_completes_partial`, `C51_completing_run_partial`, `C51_lost_is_forever`, `C52_contacted_when_awake`, `C71_endpoint_request_refuted`, `C71_never_identified`, `C118_knowledge_is_kept`, `C119_known_is_not_asked`, `C119_nothing_after_the_end`, `C104_save_crash_exactly_partial`, `C116_network_can_be_identified`, `C117_from_start_to_identified`, `C46_report_effect`, `C46_other_reports_change_nothing`, `C46_events`, `C46_events_exactly_for_changes`, `C47_alarm_stays_raised_refuted`, `C47_alarm_needs_window_partial`, `C47_alarm_over_partial`, `C47_last_type_partial`, `C47_windows_end_partial`, `C47_flag_exact_partial`, `C48_wakeup_releases_refuted`, `C48_undisturbed_waits_partial`, `C48_released_partial`, `C48_listening_nodes_partial`, `C48_nothing_else_releases_partial`, `C53_get_last_added`, `C53_all_lists_each_id_once`, `C53_all_agrees_with_get`, `C53_keys_are_ids`, `C54_readers_return_refuted`, `C54_readers_return_partial`, `C54_blocked_readers_partial`, `C67_unknown_level_refuted`, `C67_unknown_level_partial`, `C68_readers_exclude_add_refuted`, `C68_adds_exclude_each_other_partial`, `C69_report_never_crashes_refuted`, `C69_report_never_crashes_partial`, `C69_new_nodes_have_maps_partial`, `C114_table_up_to_date`, `C114_same_devices`, `C114_parameters_sound`, `C114_parameters_complete`, `C114_any_files`, `C115_values_allowed_refuted`, `C115_values_allowed_partial`, `C96_command_is_written`, `C96_writers_not_stuck`, `C97_frames_received_refuted`, `C97_frames_wiped_partial`, `C97_frames_received_partial`, `C97_bytes_in_order_partial`, `C84_port_away_refuted`, `C84_port_away_partial`, `C84_connection_partial`, `C85_no_command_lost_refuted`, `C85_no_command_lost_partial`, `C07_chunking`, `C07_every_chunking`, `C08_resynchronises_refuted`, `C08_resynchronises_partial`, `C09_terminates`, `C09_accounts`, `C09_never_stuck`, `C09_left_over`, `C10_one_ack_per_frame`, `C10_ack_only_after_frame`, `C10_frame_is_acked`, `C11_reports_in_order_refuted`, `C11_one_callback_per_report_partial`, `C11_callbacks_run_once_partial`, `C66_reports_only_from_frames_refuted`, `C66_reports_only_from_frames_partial`, `C58_refuted`, `C58_partial`, `C58_filter`, `C59_once`, `C59_completes`, `C59_order_refuted`, `C76_refuted`, `C76_partial`, `C77_refuted`, `C77_partial`, `C12_bitmap_decoded`, `C12_short_bitmap_is_error`, `C12_long_bitmap_panics`, `C13_protocol_info_bits`, `C13_short_payload_is_error`, `C14_reports_total`, `C14_reports_dispatch_sound`, `C14_reports_dispatch_complete`, `C15_switch_binary_v1`, `C15_switch_binary_v2`, `C15_switch_multilevel_v1`, `C15_switch_multilevel_v4`, `C15_switch_other_lengths`, `C16_reading_exists`, `C17_bad_size_rejected_refuted`, `C17_bad_size_reads_zero`, `C17_short_payload_rejected_partial`, `C19_duration_span`, `C19_duration_factory_default`, `C20_manufacturer_hex`, `C20_other_lengths`, `C21_endpoints_decoded`, `C21_short_is_error`, `C62_alarm_long`, `C62_alarm_short`, `C62_alarm_too_short`, `C120_up_to_date_refuted`, `C120_classes_refuted`, `C120_up_to_date_partial`, `C120_published_partial`, `C121_file_is_current_refuted`, `C121_saved_nodes_partial`, `C121_all_saved_partial`, `C121_loaded_nodes_partial`, `C92_last_report_wins_refuted`, `C92_reports_applied_partial`, `C92_one_report_partial`, `C93_known_nodes_were_listed`, `C94_listed_nodes_known_refuted`, `C94_listed_nodes_known_partial`, `C95_frame_reaches_all_it_answers`, `C109_alarm_fields`, `C109_short_alarm_fields`, `C109_product_fields`, `C109_endpoints_fields`, `C110_unknown_is_shown_refuted`, `C110_switch_is_shown_partial`, `C110_switch_transition_is_shown`, `C110_level_is_shown`, `C110_level_transition_is_shown`, `C111_type_and_unit_are_shown`, `C67_taken_for_full_partial`, `C68_called_before_partial`, `C100_product_from_node`, `C100_no_product_no_names`, `C101_type_of_one_node_refuted`, `C101_type_after_question_partial`, `C102_endpoints_from_node`, `C102_identified_told_everything`, `C103_question_ends_refuted`, `C103_timeout_ends_wait_partial`
