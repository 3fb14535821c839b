(** What the import macros of the public headers declare, and the prototypes of the functions.
    Written by tools/imports.py from the headers; comments give the lines.  In types, white space is
    dropped next to punctuation; the array bounds and the names of parameters of function pointers are kept. *)
From Coq Require Import String List Bool.
From Verif Require Import ImpModel.
Import ListNotations.
Local Open Scope string_scope.

(** include/rcpr/allocator.h:549-587, RCPR_IMPORT_allocator *)
Definition import_allocator : list entry := [
  (* 551 *) DType "allocator" "allocator";
  (* 552 *) DType "allocator_allocate_fn" "allocator_allocate_fn";
  (* 553 *) DType "allocator_reclaim_fn" "allocator_reclaim_fn";
  (* 554 *) DType "allocator_reallocate_fn" "allocator_reallocate_fn";
  (* 555 *) DType "allocator_control_fn" "allocator_control_fn";
  (* 556 *) DType "allocator_vtable" "allocator_vtable";
  (* 557 *) DFun (Wrap "malloc_allocator_create" "status" true [("RCPR_SYM(allocator)**", "x")] (Call true "malloc_allocator_create" ["x"]));
  (* 561 *) DFun (Wrap "bump_allocator_create" "status" true [("RCPR_SYM(allocator)**", "x"); ("void*", "y"); ("size_t", "z")] (Call true "bump_allocator_create" ["x"; "y"; "z"]));
  (* 564 *) DFun (Wrap "allocator_allocate" "status" true [("RCPR_SYM(allocator)*", "x"); ("void**", "y"); ("size_t", "z")] (Call true "allocator_allocate" ["x"; "y"; "z"]));
  (* 567 *) DFun (Wrap "allocator_reclaim" "status" true [("RCPR_SYM(allocator)*", "x"); ("void*", "y")] (Call true "allocator_reclaim" ["x"; "y"]));
  (* 570 *) DFun (Wrap "allocator_reallocate" "status" true [("RCPR_SYM(allocator)*", "x"); ("void**", "y"); ("size_t", "z")] (Call true "allocator_reallocate" ["x"; "y"; "z"]));
  (* 573 *) DFun (Wrap "allocator_control" "status" true [("RCPR_SYM(allocator)*", "w"); ("int", "x"); ("void*", "y"); ("size_t", "z")] (Call true "allocator_control" ["w"; "x"; "y"; "z"]));
  (* 576 *) DFun (Wrap "allocator_resource_handle" "RCPR_SYM(resource)*" false [("RCPR_SYM(allocator)*", "x")] (Call true "allocator_resource_handle" ["x"]));
  (* 579 *) DFun (Wrap "property_allocator_valid" "bool" false [("const RCPR_SYM(allocator)*", "x")] (Call true "property_allocator_valid" ["x"]))
].
(** include/rcpr/auto_reset_trigger.h:247-279, RCPR_IMPORT_auto_reset_trigger *)
Definition import_auto_reset_trigger : list entry := [
  (* 249 *) DType "auto_reset_trigger" "auto_reset_trigger";
  (* 250 *) DType "auto_reset_trigger_callback" "auto_reset_trigger_callback";
  (* 252 *) DFun (Wrap "auto_reset_trigger_create" "status" true [("RCPR_SYM(auto_reset_trigger)**", "x"); ("RCPR_SYM(allocator)*", "y")] (Call true "auto_reset_trigger_create" ["x"; "y"]));
  (* 255 *) DFun (Wrap "auto_reset_trigger_resource_handle" "RCPR_SYM(resource)*" false [("RCPR_SYM(auto_reset_trigger)*", "x")] (Call true "auto_reset_trigger_resource_handle" ["x"]));
  (* 259 *) DFun (Wrap "auto_reset_trigger_signal" "void" false [("RCPR_SYM(auto_reset_trigger)*", "x")] (Call false "auto_reset_trigger_signal" ["x"]));
  (* 262 *) DFun (Wrap "auto_reset_trigger_step" "void" false [("RCPR_SYM(auto_reset_trigger)*", "x")] (Call false "auto_reset_trigger_step" ["x"]));
  (* 265 *) DFun (Wrap "auto_reset_trigger_register" "status" true [("RCPR_SYM(auto_reset_trigger)*", "x"); ("RCPR_SYM(auto_reset_trigger_callback)", "y"); ("void*", "z")] (Call true "auto_reset_trigger_register" ["x"; "y"; "z"]));
  (* 270 *) DFun (Wrap "property_auto_reset_trigger_valid" "bool" false [("const RCPR_SYM(auto_reset_trigger)*", "x")] (Call true "property_auto_reset_trigger_valid" ["x"]))
].
(** include/rcpr/bigint.h:159-186, RCPR_IMPORT_bigint *)
Definition import_bigint : list entry := [
  (* 161 *) DType "bigint" "bigint";
  (* 162 *) DFun (Wrap "bigint_create_zero" "status" true [("RCPR_SYM(bigint)**", "x"); ("RCPR_SYM(allocator)*", "y"); ("size_t", "z")] (Call true "bigint_create_zero" ["x"; "y"; "z"]));
  (* 165 *) DFun (Wrap "bigint_clone" "status" true [("RCPR_SYM(bigint)**", "x"); ("RCPR_SYM(allocator)*", "y"); ("const RCPR_SYM(bigint)*", "z")] (Call true "bigint_clone" ["x"; "y"; "z"]));
  (* 169 *) DFun (Wrap "bigint_modulus_int" "int" false [("RCPR_SYM(bigint)*", "x"); ("int", "y")] (Call true "bigint_modulus_int" ["x"; "y"]));
  (* 172 *) DFun (Wrap "bigint_divide_int" "void" false [("RCPR_SYM(bigint)*", "x"); ("int", "y")] (Call false "bigint_divide_int" ["x"; "y"]));
  (* 175 *) DFun (Wrap "bigint_resource_handle" "RCPR_SYM(resource)*" false [("RCPR_SYM(bigint)*", "x")] (Call true "bigint_resource_handle" ["x"]));
  (* 178 *) DFun (Wrap "prop_bigint_valid" "bool" false [("const RCPR_SYM(bigint)*", "x")] (Call true "prop_bigint_valid" ["x"]))
].
(** include/rcpr/compare.h:59-68, RCPR_IMPORT_compare *)
Definition import_compare : list entry := [
  (* 60 *) DType "rcpr_comparison_result" "rcpr_comparison_result";
  (* 62 *) DType "compare_fn" "compare_fn";
  (* 63 *) DType "compare_key_fn" "compare_key_fn"
].
(** include/rcpr/condition.h:155-186, RCPR_IMPORT_condition *)
Definition import_condition : list entry := [
  (* 157 *) DType "conditional" "conditional";
  (* 158 *) DFun (Wrap "conditional_create" "status" true [("RCPR_SYM(conditional)*", "x"); ("RCPR_SYM(fiber_scheduler_discipline)*", "y")] (Call true "conditional_create" ["x"; "y"]));
  (* 162 *) DFun (Wrap "condition_discipline_get_or_create" "status" true [("RCPR_SYM(fiber_scheduler_discipline)**", "x"); ("RCPR_SYM(allocator)*", "y"); ("RCPR_SYM(fiber_scheduler)*", "z")] (Call true "condition_discipline_get_or_create" ["x"; "y"; "z"]));
  (* 167 *) DFun (Wrap "conditional_close" "status" true [("RCPR_SYM(conditional)", "x"); ("RCPR_SYM(fiber_scheduler_discipline)*", "y")] (Call true "conditional_close" ["x"; "y"]));
  (* 170 *) DFun (Wrap "conditional_wait" "status" true [("RCPR_SYM(conditional)", "x"); ("RCPR_SYM(fiber_scheduler_discipline)*", "y")] (Call true "conditional_wait" ["x"; "y"]));
  (* 173 *) DFun (Wrap "conditional_notify_one" "status" true [("RCPR_SYM(conditional)", "x"); ("RCPR_SYM(fiber_scheduler_discipline)*", "y")] (Call true "conditional_notify_one" ["x"; "y"]));
  (* 177 *) DFun (Wrap "conditional_notify_all" "status" true [("RCPR_SYM(conditional)", "x"); ("RCPR_SYM(fiber_scheduler_discipline)*", "y")] (Call true "conditional_notify_all" ["x"; "y"]))
].
(** include/rcpr/fiber.h:1172-1358, RCPR_IMPORT_fiber *)
Definition import_fiber : list entry := [
  (* 1174 *) DType "fiber" "fiber";
  (* 1175 *) DType "fiber_scheduler" "fiber_scheduler";
  (* 1176 *) DType "fiber_scheduler_discipline" "fiber_scheduler_discipline";
  (* 1178 *) DType "fiber_fn" "fiber_fn";
  (* 1179 *) DType "fiber_scheduler_callback_fn" "fiber_scheduler_callback_fn";
  (* 1181 *) DType "fiber_scheduler_discipline_callback_fn" "fiber_scheduler_discipline_callback_fn";
  (* 1183 *) DType "fiber_unexpected_event_callback_fn" "fiber_unexpected_event_callback_fn";
  (* 1185 *) DFun (Wrap "fiber_create" "status" true [("RCPR_SYM(fiber)**", "u"); ("RCPR_SYM(allocator)*", "v"); ("RCPR_SYM(fiber_scheduler)*", "w"); ("size_t", "x"); ("void*", "y"); ("RCPR_SYM(fiber_fn)", "z")] (Call true "fiber_create" ["u"; "v"; "w"; "x"; "y"; "z"]));
  (* 1190 *) DFun (Wrap "fiber_create_for_thread" "status" true [("RCPR_SYM(fiber)**", "x"); ("RCPR_SYM(fiber_scheduler)*", "y"); ("RCPR_SYM(allocator)*", "z")] (Call true "fiber_create_for_thread" ["x"; "y"; "z"]));
  (* 1195 *) DFun (Wrap "fiber_scheduler_create" "status" true [("RCPR_SYM(fiber_scheduler)**", "w"); ("RCPR_SYM(allocator)*", "x"); ("void*", "y"); ("RCPR_SYM(fiber_scheduler_callback_fn)", "z")] (Call true "fiber_scheduler_create" ["w"; "x"; "y"; "z"]));
  (* 1200 *) DFun (Wrap "fiber_scheduler_create_with_disciplines" "status" true [("RCPR_SYM(fiber_scheduler)**", "x"); ("RCPR_SYM(allocator)*", "y")] (Call true "fiber_scheduler_create_with_disciplines" ["x"; "y"]));
  (* 1204 *) DFun (Wrap "fiber_scheduler_discipline_create" "status" true [("RCPR_SYM(fiber_scheduler_discipline)**", "u"); ("const RCPR_SYM(rcpr_uuid)*", "v"); ("RCPR_SYM(allocator)*", "w"); ("void*", "x"); ("size_t", "y"); ("RCPR_SYM(fiber_scheduler_discipline_callback_fn)*", "z")] (Call true "fiber_scheduler_discipline_create" ["u"; "v"; "w"; "x"; "y"; "z"]));
  (* 1210 *) DFun (Wrap "fiber_scheduler_add" "status" true [("RCPR_SYM(fiber_scheduler)*", "x"); ("RCPR_SYM(fiber)*", "y")] (Call true "fiber_scheduler_add" ["x"; "y"]));
  (* 1214 *) DFun (Wrap "fiber_scheduler_discipline_add" "status" true [("RCPR_SYM(fiber_scheduler)*", "x"); ("RCPR_SYM(fiber_scheduler_discipline)*", "y")] (Call true "fiber_scheduler_discipline_add" ["x"; "y"]));
  (* 1219 *) DFun (Wrap "fiber_scheduler_discipline_find" "status" true [("RCPR_SYM(fiber_scheduler_discipline)**", "x"); ("RCPR_SYM(fiber_scheduler)*", "y"); ("const RCPR_SYM(rcpr_uuid)*", "z")] (Call true "fiber_scheduler_discipline_find" ["x"; "y"; "z"]));
  (* 1224 *) DFun (Wrap "fiber_scheduler_run" "status" true [("RCPR_SYM(fiber_scheduler)*", "x")] (Call true "fiber_scheduler_run" ["x"]));
  (* 1228 *) DFun (Wrap "fiber_scheduler_yield" "status" true [("RCPR_SYM(fiber_scheduler)*", "u"); ("int", "v"); ("void*", "w"); ("const RCPR_SYM(rcpr_uuid)**", "x"); ("int*", "y"); ("void**", "z")] (Call true "fiber_scheduler_yield" ["u"; "v"; "w"; "x"; "y"; "z"]));
  (* 1233 *) DFun (Wrap "fiber_discipline_yield" "status" true [("RCPR_SYM(fiber_scheduler_discipline)*", "u"); ("int", "v"); ("void*", "w"); ("const RCPR_SYM(rcpr_uuid)**", "x"); ("int*", "y"); ("void**", "z")] (Call true "fiber_discipline_yield" ["u"; "v"; "w"; "x"; "y"; "z"]));
  (* 1238 *) DFun (Wrap "fiber_discipline_scheduler_get" "status" true [("RCPR_SYM(fiber_scheduler)**", "x"); ("RCPR_SYM(fiber_scheduler_discipline)*", "y")] (Call true "fiber_discipline_scheduler_get" ["x"; "y"]));
  (* 1243 *) DFun (Wrap "fiber_unexpected_event_callback_add" "status" true [("RCPR_SYM(fiber)*", "x"); ("RCPR_SYM(fiber_unexpected_event_callback_fn)", "y"); ("void*", "z")] (Call true "fiber_unexpected_event_callback_add" ["x"; "y"; "z"]));
  (* 1248 *) DFun (Wrap "fiber_unexpected_event" "status" true [("RCPR_SYM(fiber)*", "u"); ("const RCPR_SYM(rcpr_uuid)*", "v"); ("int", "w"); ("void*", "x"); ("const RCPR_SYM(rcpr_uuid)*", "y"); ("int", "z")] (Call true "fiber_unexpected_event" ["u"; "v"; "w"; "x"; "y"; "z"]));
  (* 1253 *) DFun (Wrap "disciplined_fiber_scheduler_add_fiber_to_run_queue" "status" true [("RCPR_SYM(fiber_scheduler)*", "v"); ("RCPR_SYM(fiber)*", "w"); ("const RCPR_SYM(rcpr_uuid)*", "x"); ("int", "y"); ("void*", "z")] (Call true "disciplined_fiber_scheduler_add_fiber_to_run_queue" ["v"; "w"; "x"; "y"; "z"]));
  (* 1260 *) DFun (Wrap "disciplined_fiber_scheduler_set_next_fiber_to_run" "status" true [("RCPR_SYM(fiber_scheduler)*", "v"); ("RCPR_SYM(fiber)*", "w"); ("const RCPR_SYM(rcpr_uuid)*", "x"); ("int", "y"); ("void*", "z")] (Call true "disciplined_fiber_scheduler_set_next_fiber_to_run" ["v"; "w"; "x"; "y"; "z"]));
  (* 1267 *) DFun (Wrap "disciplined_fiber_scheduler_set_idle_fiber" "status" true [("RCPR_SYM(fiber_scheduler)*", "x"); ("RCPR_SYM(fiber)*", "y")] (Call true "disciplined_fiber_scheduler_set_idle_fiber" ["x"; "y"]));
  (* 1272 *) DFun (Wrap "disciplined_fiber_scheduler_idle_fiber_yield" "status" true [("RCPR_SYM(fiber_scheduler)*", "x")] (Call true "disciplined_fiber_scheduler_idle_fiber_yield" ["x"]));
  (* 1277 *) DFun (Wrap "disciplined_fiber_scheduler_receive_management_event" "status" true [("RCPR_SYM(fiber_scheduler)*", "w"); ("const RCPR_SYM(rcpr_uuid)**", "x"); ("int*", "y"); ("void**", "z")] (Call true "disciplined_fiber_scheduler_receive_management_event" ["w"; "x"; "y"; "z"]));
  (* 1284 *) DFun (Wrap "disciplined_fiber_scheduler_send_quiesce_request_to_fiber" "status" true [("RCPR_SYM(fiber_scheduler)*", "x"); ("RCPR_SYM(fiber)*", "y")] (Call true "disciplined_fiber_scheduler_send_quiesce_request_to_fiber" ["x"; "y"]));
  (* 1291 *) DFun (Wrap "disciplined_fiber_scheduler_send_terminate_request_to_fiber" "status" true [("RCPR_SYM(fiber_scheduler)*", "x"); ("RCPR_SYM(fiber)*", "y")] (Call true "disciplined_fiber_scheduler_send_terminate_request_to_fiber" ["x"; "y"]));
  (* 1298 *) DFun (Wrap "disciplined_fiber_scheduler_send_quiesce_request_to_all" "status" true [("RCPR_SYM(fiber_scheduler)*", "x")] (Call true "disciplined_fiber_scheduler_send_quiesce_request_to_all" ["x"]));
  (* 1305 *) DFun (Wrap "disciplined_fiber_scheduler_send_terminate_request_to_all" "status" true [("RCPR_SYM(fiber_scheduler)*", "x")] (Call true "disciplined_fiber_scheduler_send_terminate_request_to_all" ["x"]));
  (* 1312 *) DFun (Wrap "disciplined_fiber_scheduler_remove_fiber" "status" true [("RCPR_SYM(fiber_scheduler)*", "x"); ("RCPR_SYM(fiber)*", "y")] (Call true "disciplined_fiber_scheduler_remove_fiber" ["x"; "y"]));
  (* 1316 *) DFun (Wrap "disciplined_fiber_scheduler_main_fiber_get" "status" true [("RCPR_SYM(fiber)**", "x"); ("RCPR_SYM(fiber_scheduler)*", "y")] (Call true "disciplined_fiber_scheduler_main_fiber_get" ["x"; "y"]));
  (* 1320 *) DFun (Wrap "disciplined_fiber_scheduler_current_fiber_get" "status" true [("RCPR_SYM(fiber)**", "x"); ("RCPR_SYM(fiber_scheduler)*", "y")] (Call true "disciplined_fiber_scheduler_current_fiber_get" ["x"; "y"]));
  (* 1325 *) DFun (Wrap "fiber_scheduler_discipline_context_get" "void*" false [("RCPR_SYM(fiber_scheduler_discipline)*", "x")] (Call true "fiber_scheduler_discipline_context_get" ["x"]));
  (* 1329 *) DFun (Wrap "fiber_resource_handle" "RCPR_SYM(resource)*" false [("RCPR_SYM(fiber)*", "x")] (Call true "fiber_resource_handle" ["x"]));
  (* 1332 *) DFun (Wrap "fiber_scheduler_resource_handle" "RCPR_SYM(resource)*" false [("RCPR_SYM(fiber_scheduler)*", "x")] (Call true "fiber_scheduler_resource_handle" ["x"]));
  (* 1336 *) DFun (Wrap "fiber_scheduler_discipline_resource_handle" "RCPR_SYM(resource)*" false [("RCPR_SYM(fiber_scheduler_discipline)*", "x")] (Call true "fiber_scheduler_discipline_resource_handle" ["x"]));
  (* 1340 *) DFun (Wrap "fiber_state_get" "uint64_t" false [("const RCPR_SYM(fiber)*", "x")] (Call true "fiber_state_get" ["x"]));
  (* 1343 *) DFun (Wrap "fiber_scheduler_from_fiber_get" "RCPR_SYM(fiber_scheduler)*" false [("RCPR_SYM(fiber)*", "x")] (Call true "fiber_scheduler_from_fiber_get" ["x"]));
  (* 1347 *) DFun (Wrap "prop_fiber_valid" "bool" false [("const RCPR_SYM(fiber)*", "x")] (Call true "prop_fiber_valid" ["x"]));
  (* 1350 *) DFun (Wrap "prop_fiber_scheduler_valid" "bool" false [("const RCPR_SYM(fiber_scheduler)*", "x")] (Call true "prop_fiber_scheduler_valid" ["x"]))
].
(** include/rcpr/list.h:897-963, RCPR_IMPORT_list *)
Definition import_list : list entry := [
  (* 899 *) DType "list" "list";
  (* 900 *) DType "list_node" "list_node";
  (* 901 *) DFun (Wrap "list_create" "status" true [("RCPR_SYM(list)**", "x"); ("RCPR_SYM(allocator)*", "y")] (Call true "list_create" ["x"; "y"]));
  (* 904 *) DFun (Wrap "list_insert_head" "status" true [("RCPR_SYM(list)*", "x"); ("RCPR_SYM(resource)*", "y")] (Call true "list_insert_head" ["x"; "y"]));
  (* 907 *) DFun (Wrap "list_append_tail" "status" true [("RCPR_SYM(list)*", "x"); ("RCPR_SYM(resource)*", "y")] (Call true "list_append_tail" ["x"; "y"]));
  (* 910 *) DFun (Wrap "list_append" "status" true [("RCPR_SYM(list_node)*", "x"); ("RCPR_SYM(resource)*", "y")] (Call true "list_append" ["x"; "y"]));
  (* 913 *) DFun (Wrap "list_insert" "status" true [("RCPR_SYM(list_node)*", "x"); ("RCPR_SYM(resource)*", "y")] (Call true "list_insert" ["x"; "y"]));
  (* 916 *) DFun (Wrap "list_node_child_swap" "status" true [("RCPR_SYM(list_node)*", "x"); ("RCPR_SYM(resource)**", "y")] (Call true "list_node_child_swap" ["x"; "y"]));
  (* 919 *) DFun (Wrap "list_pop" "status" true [("RCPR_SYM(list)*", "x"); ("RCPR_SYM(resource)**", "y")] (Call true "list_pop" ["x"; "y"]));
  (* 922 *) DFun (Wrap "list_swap" "void" false [("RCPR_SYM(list)*", "x"); ("RCPR_SYM(list)*", "y")] (Call false "list_swap" ["x"; "y"]));
  (* 925 *) DFun (Wrap "list_clear" "status" true [("RCPR_SYM(list)*", "x")] (Call true "list_clear" ["x"]));
  (* 928 *) DFun (Wrap "list_resource_handle" "RCPR_SYM(resource)*" false [("RCPR_SYM(list)*", "x")] (Call true "list_resource_handle" ["x"]));
  (* 931 *) DFun (Wrap "list_node_resource_handle" "RCPR_SYM(resource)*" false [("RCPR_SYM(list_node)*", "x")] (Call true "list_node_resource_handle" ["x"]));
  (* 934 *) DFun (Wrap "list_head" "status" true [("RCPR_SYM(list_node)**", "x"); ("RCPR_SYM(list)*", "y")] (Call true "list_head" ["x"; "y"]));
  (* 937 *) DFun (Wrap "list_tail" "status" true [("RCPR_SYM(list_node)**", "x"); ("RCPR_SYM(list)*", "y")] (Call true "list_tail" ["x"; "y"]));
  (* 940 *) DFun (Wrap "list_count" "size_t" false [("RCPR_SYM(list)*", "x")] (Call true "list_count" ["x"]));
  (* 943 *) DFun (Wrap "list_node_child" "status" true [("RCPR_SYM(resource)**", "x"); ("RCPR_SYM(list_node)*", "y")] (Call true "list_node_child" ["x"; "y"]));
  (* 946 *) DFun (Wrap "list_node_next" "status" true [("RCPR_SYM(list_node)**", "x"); ("RCPR_SYM(list_node)*", "y")] (Call true "list_node_next" ["x"; "y"]));
  (* 949 *) DFun (Wrap "list_node_prev" "status" true [("RCPR_SYM(list_node)**", "x"); ("RCPR_SYM(list_node)*", "y")] (Call true "list_node_prev" ["x"; "y"]));
  (* 952 *) DFun (Wrap "property_list_valid" "bool" false [("const RCPR_SYM(list)*", "x")] (Call true "property_list_valid" ["x"]));
  (* 955 *) DFun (Wrap "property_list_node_valid" "bool" false [("const RCPR_SYM(list_node)*", "x")] (Call true "property_list_node_valid" ["x"]))
].
(** include/rcpr/message.h:284-332, RCPR_IMPORT_message *)
Definition import_message : list entry := [
  (* 286 *) DType "message" "message";
  (* 287 *) DType "mailbox_address" "mailbox_address";
  (* 288 *) DType "message_unexpected_handler_callback_fn" "message_unexpected_handler_callback_fn";
  (* 290 *) DFun (Wrap "mailbox_create" "status" true [("RCPR_SYM(mailbox_address)*", "x"); ("RCPR_SYM(fiber_scheduler_discipline)*", "y")] (Call true "mailbox_create" ["x"; "y"]));
  (* 294 *) DFun (Wrap "message_create" "status" true [("RCPR_SYM(message)**", "w"); ("RCPR_SYM(allocator)*", "x"); ("RCPR_SYM(mailbox_address)", "y"); ("RCPR_SYM(resource)*", "z")] (Call true "message_create" ["w"; "x"; "y"; "z"]));
  (* 298 *) DFun (Wrap "message_discipline_get_or_create" "status" true [("RCPR_SYM(fiber_scheduler_discipline)**", "x"); ("RCPR_SYM(allocator)*", "y"); ("RCPR_SYM(fiber_scheduler)*", "z")] (Call true "message_discipline_get_or_create" ["x"; "y"; "z"]));
  (* 303 *) DFun (Wrap "mailbox_close" "status" true [("RCPR_SYM(mailbox_address)", "x"); ("RCPR_SYM(fiber_scheduler_discipline)*", "y")] (Call true "mailbox_close" ["x"; "y"]));
  (* 306 *) DFun (Wrap "message_send" "status" true [("RCPR_SYM(mailbox_address)", "x"); ("RCPR_SYM(message)*", "y"); ("RCPR_SYM(fiber_scheduler_discipline)*", "z")] (Call true "message_send" ["x"; "y"; "z"]));
  (* 310 *) DFun (Wrap "message_receive" "status" true [("RCPR_SYM(mailbox_address)", "x"); ("RCPR_SYM(message)**", "y"); ("RCPR_SYM(fiber_scheduler_discipline)*", "z")] (Call true "message_receive" ["x"; "y"; "z"]));
  (* 314 *) DFun (Wrap "message_resource_handle" "RCPR_SYM(resource)*" false [("RCPR_SYM(message)*", "x")] (Call true "message_resource_handle" ["x"]));
  (* 317 *) DFun (Wrap "message_return_address" "RCPR_SYM(mailbox_address)" false [("const RCPR_SYM(message)*", "x")] (Call true "message_return_address" ["x"]));
  (* 321 *) DFun (Wrap "message_payload" "RCPR_SYM(resource)*" false [("RCPR_SYM(message)*", "x"); ("bool", "y")] (Call true "message_payload" ["x"; "y"]));
  (* 324 *) DFun (Wrap "prop_message_valid" "bool" false [("const RCPR_SYM(message)*", "x")] (Call true "prop_message_valid" ["x"]))
].
(** include/rcpr/psock.h:2428-2704, RCPR_IMPORT_psock *)
Definition import_psock : list entry := [
  (* 2430 *) DType "psock_read_fn" "psock_read_fn";
  (* 2431 *) DType "psock_write_fn" "psock_write_fn";
  (* 2432 *) DType "psock_accept_fn" "psock_accept_fn";
  (* 2433 *) DType "psock_release_fn" "psock_release_fn";
  (* 2434 *) DType "psock" "psock";
  (* 2435 *) DType "psock_vtable" "psock_vtable";
  (* 2436 *) DType "psock_br" "psock_br";
  (* 2437 *) DType "psock_boxed_type" "psock_boxed_type";
  (* 2438 *) DType "socket_type" "socket_type";
  (* 2439 *) DFun (Wrap "psock_create_from_descriptor" "status" true [("RCPR_SYM(psock)**", "x"); ("RCPR_SYM(allocator)*", "y"); ("int", "z")] (Call true "psock_create_from_descriptor" ["x"; "y"; "z"]));
  (* 2443 *) DFun (Wrap "psock_create_wrap_async" "status" true [("RCPR_SYM(psock)**", "w"); ("RCPR_SYM(allocator)*", "x"); ("RCPR_SYM(fiber)*", "y"); ("RCPR_SYM(psock)*", "z")] (Call true "psock_create_wrap_async" ["w"; "x"; "y"; "z"]));
  (* 2448 *) DFun (Wrap "psock_create_from_hostname_and_port" "status" true [("RCPR_SYM(psock)**", "w"); ("RCPR_SYM(allocator)*", "x"); ("const char*", "y"); ("unsigned int", "z")] (Call true "psock_create_from_hostname_and_port" ["w"; "x"; "y"; "z"]));
  (* 2453 *) DFun (Wrap "psock_create_from_listen_address" "status" true [("RCPR_SYM(psock)**", "w"); ("RCPR_SYM(allocator)*", "x"); ("const struct sockaddr*", "y"); ("socklen_t", "z")] (Call true "psock_create_from_listen_address" ["w"; "x"; "y"; "z"]));
  (* 2458 *) DFun (Wrap "psock_create_from_buffer" "status" true [("RCPR_SYM(psock)**", "w"); ("RCPR_SYM(allocator)*", "x"); ("const char*", "y"); ("size_t", "z")] (Call true "psock_create_from_buffer" ["w"; "x"; "y"; "z"]));
  (* 2463 *) DFun (Wrap "psock_create_from_user_methods" "status" true [("RCPR_SYM(psock)**", "w"); ("RCPR_SYM(allocator)*", "x"); ("void*", "y"); ("const RCPR_SYM(psock_vtable)*", "z")] (Call true "psock_create_from_user_methods" ["w"; "x"; "y"; "z"]));
  (* 2468 *) DFun (Wrap "psock_br_create_from_psock" "status" true [("RCPR_SYM(psock_br)**", "x"); ("RCPR_SYM(allocator)*", "y"); ("RCPR_SYM(psock)*", "z")] (Call true "psock_br_create_from_psock" ["x"; "y"; "z"]));
  (* 2472 *) DFun (Wrap "psock_read_boxed_int64" "status" true [("RCPR_SYM(psock)*", "x"); ("int64_t*", "y")] (Call true "psock_read_boxed_int64" ["x"; "y"]));
  (* 2476 *) DFun (Wrap "psock_read_boxed_uint64" "status" true [("RCPR_SYM(psock)*", "x"); ("uint64_t*", "y")] (Call true "psock_read_boxed_uint64" ["x"; "y"]));
  (* 2480 *) DFun (Wrap "psock_read_boxed_int32" "status" true [("RCPR_SYM(psock)*", "x"); ("int32_t*", "y")] (Call true "psock_read_boxed_int32" ["x"; "y"]));
  (* 2484 *) DFun (Wrap "psock_read_boxed_uint32" "status" true [("RCPR_SYM(psock)*", "x"); ("uint32_t*", "y")] (Call true "psock_read_boxed_uint32" ["x"; "y"]));
  (* 2488 *) DFun (Wrap "psock_read_boxed_int16" "status" true [("RCPR_SYM(psock)*", "x"); ("int16_t*", "y")] (Call true "psock_read_boxed_int16" ["x"; "y"]));
  (* 2492 *) DFun (Wrap "psock_read_boxed_uint16" "status" true [("RCPR_SYM(psock)*", "x"); ("uint16_t*", "y")] (Call true "psock_read_boxed_uint16" ["x"; "y"]));
  (* 2496 *) DFun (Wrap "psock_read_boxed_int8" "status" true [("RCPR_SYM(psock)*", "x"); ("int8_t*", "y")] (Call true "psock_read_boxed_int8" ["x"; "y"]));
  (* 2500 *) DFun (Wrap "psock_read_boxed_uint8" "status" true [("RCPR_SYM(psock)*", "x"); ("uint8_t*", "y")] (Call true "psock_read_boxed_uint8" ["x"; "y"]));
  (* 2504 *) DFun (Wrap "psock_read_boxed_bool" "status" true [("RCPR_SYM(psock)*", "x"); ("bool*", "y")] (Call true "psock_read_boxed_bool" ["x"; "y"]));
  (* 2508 *) DFun (Wrap "psock_read_boxed_string" "status" true [("RCPR_SYM(psock)*", "w"); ("RCPR_SYM(allocator)*", "x"); ("char**", "y"); ("size_t*", "z")] (Call true "psock_read_boxed_string" ["w"; "x"; "y"; "z"]));
  (* 2512 *) DFun (Wrap "psock_read_boxed_data" "status" true [("RCPR_SYM(psock)*", "w"); ("RCPR_SYM(allocator)*", "x"); ("void**", "y"); ("size_t*", "z")] (Call true "psock_read_boxed_data" ["w"; "x"; "y"; "z"]));
  (* 2516 *) DFun (Wrap "psock_write_boxed_int64" "status" true [("RCPR_SYM(psock)*", "x"); ("int64_t", "y")] (Call true "psock_write_boxed_int64" ["x"; "y"]));
  (* 2520 *) DFun (Wrap "psock_write_boxed_uint64" "status" true [("RCPR_SYM(psock)*", "x"); ("uint64_t", "y")] (Call true "psock_write_boxed_uint64" ["x"; "y"]));
  (* 2524 *) DFun (Wrap "psock_write_boxed_int32" "status" true [("RCPR_SYM(psock)*", "x"); ("int32_t", "y")] (Call true "psock_write_boxed_int32" ["x"; "y"]));
  (* 2528 *) DFun (Wrap "psock_write_boxed_uint32" "status" true [("RCPR_SYM(psock)*", "x"); ("uint32_t", "y")] (Call true "psock_write_boxed_uint32" ["x"; "y"]));
  (* 2532 *) DFun (Wrap "psock_write_boxed_int16" "status" true [("RCPR_SYM(psock)*", "x"); ("int16_t", "y")] (Call true "psock_write_boxed_int16" ["x"; "y"]));
  (* 2536 *) DFun (Wrap "psock_write_boxed_uint16" "status" true [("RCPR_SYM(psock)*", "x"); ("uint16_t", "y")] (Call true "psock_write_boxed_uint16" ["x"; "y"]));
  (* 2540 *) DFun (Wrap "psock_write_boxed_int8" "status" true [("RCPR_SYM(psock)*", "x"); ("int8_t", "y")] (Call true "psock_write_boxed_int8" ["x"; "y"]));
  (* 2544 *) DFun (Wrap "psock_write_boxed_uint8" "status" true [("RCPR_SYM(psock)*", "x"); ("uint8_t", "y")] (Call true "psock_write_boxed_uint8" ["x"; "y"]));
  (* 2548 *) DFun (Wrap "psock_write_boxed_bool" "status" true [("RCPR_SYM(psock)*", "x"); ("bool", "y")] (Call true "psock_write_boxed_bool" ["x"; "y"]));
  (* 2552 *) DFun (Wrap "psock_write_boxed_string" "status" true [("RCPR_SYM(psock)*", "x"); ("const char*", "y")] (Call true "psock_write_boxed_string" ["x"; "y"]));
  (* 2556 *) DFun (Wrap "psock_write_boxed_data" "status" true [("RCPR_SYM(psock)*", "x"); ("const void*", "y"); ("size_t", "z")] (Call true "psock_write_boxed_data" ["x"; "y"; "z"]));
  (* 2560 *) DFun (Wrap "psock_read_raw" "status" true [("RCPR_SYM(psock)*", "x"); ("void*", "y"); ("size_t*", "z")] (Call true "psock_read_raw" ["x"; "y"; "z"]));
  (* 2564 *) DFun (Wrap "psock_read_block" "status" true [("RCPR_SYM(psock)*", "x")] (Call true "psock_read_block" ["x"]));
  (* 2568 *) DFun (Wrap "psock_write_block" "status" true [("RCPR_SYM(psock)*", "x")] (Call true "psock_write_block" ["x"]));
  (* 2572 *) DFun (Wrap "psock_read_raw_int64" "status" true [("RCPR_SYM(psock)*", "x"); ("int64_t*", "y")] (Call true "psock_read_raw_int64" ["x"; "y"]));
  (* 2576 *) DFun (Wrap "psock_read_raw_uint64" "status" true [("RCPR_SYM(psock)*", "x"); ("uint64_t*", "y")] (Call true "psock_read_raw_uint64" ["x"; "y"]));
  (* 2580 *) DFun (Wrap "psock_read_raw_int32" "status" true [("RCPR_SYM(psock)*", "x"); ("int32_t*", "y")] (Call true "psock_read_raw_int32" ["x"; "y"]));
  (* 2584 *) DFun (Wrap "psock_read_raw_uint32" "status" true [("RCPR_SYM(psock)*", "x"); ("uint32_t*", "y")] (Call true "psock_read_raw_uint32" ["x"; "y"]));
  (* 2588 *) DFun (Wrap "psock_read_raw_int16" "status" true [("RCPR_SYM(psock)*", "x"); ("int16_t*", "y")] (Call true "psock_read_raw_int16" ["x"; "y"]));
  (* 2592 *) DFun (Wrap "psock_read_raw_uint16" "status" true [("RCPR_SYM(psock)*", "x"); ("uint16_t*", "y")] (Call true "psock_read_raw_uint16" ["x"; "y"]));
  (* 2596 *) DFun (Wrap "psock_read_raw_int8" "status" true [("RCPR_SYM(psock)*", "x"); ("int8_t*", "y")] (Call true "psock_read_raw_int8" ["x"; "y"]));
  (* 2600 *) DFun (Wrap "psock_read_raw_uint8" "status" true [("RCPR_SYM(psock)*", "x"); ("uint8_t*", "y")] (Call true "psock_read_raw_uint8" ["x"; "y"]));
  (* 2604 *) DFun (Wrap "psock_read_raw_bool" "status" true [("RCPR_SYM(psock)*", "x"); ("bool*", "y")] (Call true "psock_read_raw_bool" ["x"; "y"]));
  (* 2608 *) DFun (Wrap "psock_read_raw_data" "status" true [("RCPR_SYM(psock)*", "w"); ("RCPR_SYM(allocator)*", "x"); ("void**", "y"); ("size_t", "z")] (Call true "psock_read_raw_data" ["w"; "x"; "y"; "z"]));
  (* 2612 *) DFun (Wrap "psock_read_raw_descriptor" "status" true [("RCPR_SYM(psock)*", "x"); ("int*", "y")] (Call true "psock_read_raw_descriptor" ["x"; "y"]));
  (* 2616 *) DFun (Wrap "psock_write_raw_int64" "status" true [("RCPR_SYM(psock)*", "x"); ("int64_t", "y")] (Call true "psock_write_raw_int64" ["x"; "y"]));
  (* 2620 *) DFun (Wrap "psock_write_raw_uint64" "status" true [("RCPR_SYM(psock)*", "x"); ("uint64_t", "y")] (Call true "psock_write_raw_uint64" ["x"; "y"]));
  (* 2624 *) DFun (Wrap "psock_write_raw_int32" "status" true [("RCPR_SYM(psock)*", "x"); ("int32_t", "y")] (Call true "psock_write_raw_int32" ["x"; "y"]));
  (* 2628 *) DFun (Wrap "psock_write_raw_uint32" "status" true [("RCPR_SYM(psock)*", "x"); ("uint32_t", "y")] (Call true "psock_write_raw_uint32" ["x"; "y"]));
  (* 2632 *) DFun (Wrap "psock_write_raw_int16" "status" true [("RCPR_SYM(psock)*", "x"); ("int16_t", "y")] (Call true "psock_write_raw_int16" ["x"; "y"]));
  (* 2636 *) DFun (Wrap "psock_write_raw_uint16" "status" true [("RCPR_SYM(psock)*", "x"); ("uint16_t", "y")] (Call true "psock_write_raw_uint16" ["x"; "y"]));
  (* 2640 *) DFun (Wrap "psock_write_raw_int8" "status" true [("RCPR_SYM(psock)*", "x"); ("int8_t", "y")] (Call true "psock_write_raw_int8" ["x"; "y"]));
  (* 2644 *) DFun (Wrap "psock_write_raw_uint8" "status" true [("RCPR_SYM(psock)*", "x"); ("uint8_t", "y")] (Call true "psock_write_raw_uint8" ["x"; "y"]));
  (* 2648 *) DFun (Wrap "psock_write_raw_bool" "status" true [("RCPR_SYM(psock)*", "x"); ("bool", "y")] (Call true "psock_write_raw_bool" ["x"; "y"]));
  (* 2652 *) DFun (Wrap "psock_write_raw_data" "status" true [("RCPR_SYM(psock)*", "x"); ("const void*", "y"); ("size_t", "z")] (Call true "psock_write_raw_data" ["x"; "y"; "z"]));
  (* 2656 *) DFun (Wrap "psock_write_raw_descriptor" "status" true [("RCPR_SYM(psock)*", "x"); ("int", "y")] (Call true "psock_write_raw_descriptor" ["x"; "y"]));
  (* 2660 *) DFun (Wrap "psock_accept" "status" true [("RCPR_SYM(psock)*", "w"); ("int*", "x"); ("struct sockaddr*", "y"); ("socklen_t*", "z")] (Call true "psock_accept" ["w"; "x"; "y"; "z"]));
  (* 2664 *) DFun (Wrap "psock_setsockopt" "status" true [("RCPR_SYM(psock)*", "v"); ("int", "w"); ("int", "x"); ("const void*", "y"); ("socklen_t", "z")] (Call true "psock_setsockopt" ["v"; "w"; "x"; "y"; "z"]));
  (* 2668 *) DFun (Wrap "psock_from_buffer_get_output_buffer" "status" true [("RCPR_SYM(psock)*", "w"); ("RCPR_SYM(allocator)*", "x"); ("void**", "y"); ("size_t*", "z")] (Call true "psock_from_buffer_get_output_buffer" ["w"; "x"; "y"; "z"]));
  (* 2672 *) DFun (Wrap "psock_br_read_line" "status" true [("void*", "x"); ("size_t*", "y"); ("RCPR_SYM(psock_br)*", "z")] (Call true "psock_br_read_line" ["x"; "y"; "z"]));
  (* 2676 *) DFun (Wrap "psock_resource_handle" "RCPR_SYM(resource)*" false [("RCPR_SYM(psock)*", "x")] (Call true "psock_resource_handle" ["x"]));
  (* 2680 *) DFun (Wrap "psock_resource_handle_to_psock" "RCPR_SYM(psock)*" false [("RCPR_SYM(resource)*", "x")] (Call true "psock_resource_handle_to_psock" ["x"]));
  (* 2684 *) DFun (Wrap "psock_br_resource_handle" "RCPR_SYM(resource)*" false [("RCPR_SYM(psock_br)*", "x")] (Call true "psock_br_resource_handle" ["x"]));
  (* 2688 *) DFun (Wrap "psock_br_psock_adapter" "RCPR_SYM(psock)*" false [("RCPR_SYM(psock_br)*", "x")] (Call true "psock_br_psock_adapter" ["x"]));
  (* 2692 *) DFun (Wrap "psock_socket_type" "RCPR_SYM(socket_type)" false [("RCPR_SYM(psock)*", "x")] (Call true "psock_socket_type" ["x"]));
  (* 2695 *) DFun (Wrap "prop_psock_valid" "bool" false [("const RCPR_SYM(psock)*", "x")] (Call true "prop_psock_valid" ["x"]))
].
(** include/rcpr/queue.h:205-234, RCPR_IMPORT_queue *)
Definition import_queue : list entry := [
  (* 207 *) DType "queue" "queue";
  (* 208 *) DFun (Wrap "queue_create" "status" true [("RCPR_SYM(queue)**", "x"); ("RCPR_SYM(allocator)*", "y")] (Call true "queue_create" ["x"; "y"]));
  (* 211 *) DFun (Wrap "queue_append" "status" true [("RCPR_SYM(queue)*", "x"); ("RCPR_SYM(resource)*", "y")] (Call true "queue_append" ["x"; "y"]));
  (* 214 *) DFun (Wrap "queue_pop" "status" true [("RCPR_SYM(queue)*", "x"); ("RCPR_SYM(resource)**", "y")] (Call true "queue_pop" ["x"; "y"]));
  (* 217 *) DFun (Wrap "queue_insert" "status" true [("RCPR_SYM(queue)*", "x"); ("RCPR_SYM(resource)*", "y")] (Call true "queue_insert" ["x"; "y"]));
  (* 220 *) DFun (Wrap "queue_count" "size_t" false [("RCPR_SYM(queue)*", "x")] (Call true "queue_count" ["x"]));
  (* 223 *) DFun (Wrap "queue_resource_handle" "RCPR_SYM(resource)*" false [("RCPR_SYM(queue)*", "x")] (Call true "queue_resource_handle" ["x"]));
  (* 226 *) DFun (Wrap "prop_queue_valid" "bool" false [("const RCPR_SYM(queue)*", "x")] (Call true "prop_queue_valid" ["x"]))
].
(** include/rcpr/rbtree.h:432-503, RCPR_IMPORT_rbtree *)
Definition import_rbtree : list entry := [
  (* 434 *) DType "rbtree" "rbtree";
  (* 435 *) DType "rbtree_node" "rbtree_node";
  (* 436 *) DFun (Wrap "rbtree_create" "status" true [("RCPR_SYM(rbtree)**", "v"); ("RCPR_SYM(allocator)*", "w"); ("RCPR_SYM(compare_fn)", "x"); ("RCPR_SYM(compare_key_fn)", "y"); ("void*", "z")] (Call true "rbtree_create" ["v"; "w"; "x"; "y"; "z"]));
  (* 440 *) DFun (Wrap "rbtree_insert" "status" true [("RCPR_SYM(rbtree)*", "x"); ("RCPR_SYM(resource)*", "y")] (Call true "rbtree_insert" ["x"; "y"]));
  (* 443 *) DFun (Wrap "rbtree_find" "status" true [("RCPR_SYM(resource)**", "x"); ("RCPR_SYM(rbtree)*", "y"); ("const void*", "z")] (Call true "rbtree_find" ["x"; "y"; "z"]));
  (* 446 *) DFun (Wrap "rbtree_delete" "status" true [("RCPR_SYM(resource)**", "x"); ("RCPR_SYM(rbtree)*", "y"); ("const void*", "z")] (Call true "rbtree_delete" ["x"; "y"; "z"]));
  (* 449 *) DFun (Wrap "rbtree_delete_node" "status" true [("RCPR_SYM(resource)**", "x"); ("RCPR_SYM(rbtree)*", "y"); ("RCPR_SYM(rbtree_node)*", "z")] (Call true "rbtree_delete_node" ["x"; "y"; "z"]));
  (* 453 *) DFun (Wrap "rbtree_clear" "status" true [("RCPR_SYM(rbtree)*", "x")] (Call true "rbtree_clear" ["x"]));
  (* 456 *) DFun (Wrap "rbtree_swap" "void" false [("RCPR_SYM(rbtree)*", "x"); ("RCPR_SYM(rbtree)*", "y")] (Call false "rbtree_swap" ["x"; "y"]));
  (* 459 *) DFun (Wrap "rbtree_minimum_node" "RCPR_SYM(rbtree_node)*" false [("RCPR_SYM(rbtree)*", "x"); ("RCPR_SYM(rbtree_node)*", "y")] (Call true "rbtree_minimum_node" ["x"; "y"]));
  (* 462 *) DFun (Wrap "rbtree_maximum_node" "RCPR_SYM(rbtree_node)*" false [("RCPR_SYM(rbtree)*", "x"); ("RCPR_SYM(rbtree_node)*", "y")] (Call true "rbtree_maximum_node" ["x"; "y"]));
  (* 465 *) DFun (Wrap "rbtree_left_node" "RCPR_SYM(rbtree_node)*" false [("RCPR_SYM(rbtree)*", "x"); ("RCPR_SYM(rbtree_node)*", "y")] (Call true "rbtree_left_node" ["x"; "y"]));
  (* 468 *) DFun (Wrap "rbtree_right_node" "RCPR_SYM(rbtree_node)*" false [("RCPR_SYM(rbtree)*", "x"); ("RCPR_SYM(rbtree_node)*", "y")] (Call true "rbtree_right_node" ["x"; "y"]));
  (* 471 *) DFun (Wrap "rbtree_parent_node" "RCPR_SYM(rbtree_node)*" false [("RCPR_SYM(rbtree)*", "x"); ("RCPR_SYM(rbtree_node)*", "y")] (Call true "rbtree_parent_node" ["x"; "y"]));
  (* 474 *) DFun (Wrap "rbtree_successor_node" "RCPR_SYM(rbtree_node)*" false [("RCPR_SYM(rbtree)*", "x"); ("RCPR_SYM(rbtree_node)*", "y")] (Call true "rbtree_successor_node" ["x"; "y"]));
  (* 477 *) DFun (Wrap "rbtree_predecessor_node" "RCPR_SYM(rbtree_node)*" false [("RCPR_SYM(rbtree)*", "x"); ("RCPR_SYM(rbtree_node)*", "y")] (Call true "rbtree_predecessor_node" ["x"; "y"]));
  (* 480 *) DFun (Wrap "rbtree_nil_node" "RCPR_SYM(rbtree_node)*" false [("RCPR_SYM(rbtree)*", "x")] (Call true "rbtree_nil_node" ["x"]));
  (* 483 *) DFun (Wrap "rbtree_root_node" "RCPR_SYM(rbtree_node)*" false [("RCPR_SYM(rbtree)*", "x")] (Call true "rbtree_root_node" ["x"]));
  (* 486 *) DFun (Wrap "rbtree_node_value" "RCPR_SYM(resource)*" false [("RCPR_SYM(rbtree)*", "x"); ("RCPR_SYM(rbtree_node)*", "y")] (Call true "rbtree_node_value" ["x"; "y"]));
  (* 489 *) DFun (Wrap "rbtree_count" "size_t" false [("RCPR_SYM(rbtree)*", "x")] (Call true "rbtree_count" ["x"]));
  (* 492 *) DFun (Wrap "rbtree_resource_handle" "RCPR_SYM(resource)*" false [("RCPR_SYM(rbtree)*", "x")] (Call true "rbtree_resource_handle" ["x"]));
  (* 495 *) DFun (Wrap "prop_rbtree_valid" "bool" false [("const RCPR_SYM(rbtree)*", "x")] (Call true "prop_rbtree_valid" ["x"]))
].
(** include/rcpr/resource.h:227-250, RCPR_IMPORT_resource *)
Definition import_resource : list entry := [
  (* 229 *) DType "resource" "resource";
  (* 230 *) DType "resource_vtable" "resource_vtable";
  (* 231 *) DType "resource_release_fn" "resource_release_fn";
  (* 232 *) DFun (Wrap "resource_release" "status" false [("RCPR_SYM(resource)*", "x")] (Call true "resource_release" ["x"]));
  (* 235 *) DFun (Wrap "resource_init" "void" false [("RCPR_SYM(resource)*", "x"); ("const RCPR_SYM(resource_vtable)*", "y")] (Call false "resource_init" ["x"; "y"]));
  (* 238 *) DFun (Wrap "resource_vtable_read" "status" true [("const RCPR_SYM(resource_vtable)**", "x"); ("const RCPR_SYM(resource)*", "y")] (Call true "resource_vtable_read" ["x"; "y"]));
  (* 242 *) DFun (Wrap "prop_resource_valid" "bool" false [("const RCPR_SYM(resource)*", "x")] (Call true "prop_resource_valid" ["x"]))
].
(** include/rcpr/slist.h:867-930, RCPR_IMPORT_slist *)
Definition import_slist : list entry := [
  (* 869 *) DType "slist" "slist";
  (* 870 *) DType "slist_node" "slist_node";
  (* 871 *) DFun (Wrap "slist_create" "status" true [("RCPR_SYM(slist)**", "x"); ("RCPR_SYM(allocator)*", "y")] (Call true "slist_create" ["x"; "y"]));
  (* 874 *) DFun (Wrap "slist_insert_head" "status" true [("RCPR_SYM(slist)*", "x"); ("RCPR_SYM(resource)*", "y")] (Call true "slist_insert_head" ["x"; "y"]));
  (* 877 *) DFun (Wrap "slist_append_tail" "status" true [("RCPR_SYM(slist)*", "x"); ("RCPR_SYM(resource)*", "y")] (Call true "slist_append_tail" ["x"; "y"]));
  (* 880 *) DFun (Wrap "slist_append" "status" true [("RCPR_SYM(slist_node)*", "x"); ("RCPR_SYM(resource)*", "y")] (Call true "slist_append" ["x"; "y"]));
  (* 883 *) DFun (Wrap "slist_node_child_swap" "status" true [("RCPR_SYM(slist_node)*", "x"); ("RCPR_SYM(resource)**", "y")] (Call true "slist_node_child_swap" ["x"; "y"]));
  (* 886 *) DFun (Wrap "slist_pop" "status" true [("RCPR_SYM(slist)*", "x"); ("RCPR_SYM(resource)**", "y")] (Call true "slist_pop" ["x"; "y"]));
  (* 889 *) DFun (Wrap "slist_node_next_pop" "status" true [("RCPR_SYM(slist_node)*", "x"); ("RCPR_SYM(resource)**", "y")] (Call true "slist_node_next_pop" ["x"; "y"]));
  (* 892 *) DFun (Wrap "slist_swap" "void" false [("RCPR_SYM(slist)*", "x"); ("RCPR_SYM(slist)*", "y")] (Call false "slist_swap" ["x"; "y"]));
  (* 895 *) DFun (Wrap "slist_clear" "status" true [("RCPR_SYM(slist)*", "x")] (Call true "slist_clear" ["x"]));
  (* 898 *) DFun (Wrap "slist_resource_handle" "RCPR_SYM(resource)*" false [("RCPR_SYM(slist)*", "x")] (Call true "slist_resource_handle" ["x"]));
  (* 901 *) DFun (Wrap "slist_node_resource_handle" "RCPR_SYM(resource)*" false [("RCPR_SYM(slist_node)*", "x")] (Call true "slist_node_resource_handle" ["x"]));
  (* 904 *) DFun (Wrap "slist_head" "status" true [("RCPR_SYM(slist_node)**", "x"); ("RCPR_SYM(slist)*", "y")] (Call true "slist_head" ["x"; "y"]));
  (* 907 *) DFun (Wrap "slist_tail" "status" true [("RCPR_SYM(slist_node)**", "x"); ("RCPR_SYM(slist)*", "y")] (Call true "slist_tail" ["x"; "y"]));
  (* 910 *) DFun (Wrap "slist_count" "size_t" false [("RCPR_SYM(slist)*", "x")] (Call true "slist_count" ["x"]));
  (* 913 *) DFun (Wrap "slist_node_child" "status" true [("RCPR_SYM(resource)**", "x"); ("RCPR_SYM(slist_node)*", "y")] (Call true "slist_node_child" ["x"; "y"]));
  (* 916 *) DFun (Wrap "slist_node_next" "status" true [("RCPR_SYM(slist_node)**", "x"); ("RCPR_SYM(slist_node)*", "y")] (Call true "slist_node_next" ["x"; "y"]));
  (* 919 *) DFun (Wrap "property_slist_valid" "bool" false [("const RCPR_SYM(slist)*", "x")] (Call true "property_slist_valid" ["x"]));
  (* 922 *) DFun (Wrap "property_slist_node_valid" "bool" false [("const RCPR_SYM(slist_node)*", "x")] (Call true "property_slist_node_valid" ["x"]))
].
(** include/rcpr/socket_utilities.h:223-278, RCPR_IMPORT_socket_utilities *)
Definition import_socket_utilities : list entry := [
  (* 225 *) DFun (Wrap "socket_utility_socketpair" "status" true [("int", "v"); ("int", "w"); ("int", "x"); ("int*", "y"); ("int*", "z")] (Call true "socket_utility_socketpair" ["v"; "w"; "x"; "y"; "z"]));
  (* 229 *) DFun (Wrap "socket_utility_set_nonblock" "status" true [("int", "x")] (Call true "socket_utility_set_nonblock" ["x"]));
  (* 233 *) DFun (Wrap "socket_utility_close_standard_fds" "status" true [] (Call true "socket_utility_close_standard_fds" []));
  (* 236 *) DFun (Wrap "socket_utility_move_descriptors" "status" true [("int", "x"); ("int*", "y"); ("...", "...")] (CallV "y" "vsocket_utility_move_descriptors" ["x"; "y"]));
  (* 244 *) DFun (Wrap "socket_utility_setfds" "status" true [("int", "x"); ("int", "y"); ("...", "...")] (CallV "y" "vsocket_utility_setfds" ["x"; "y"]));
  (* 252 *) DFun (Wrap "socket_utility_close_other_fds" "status" true [("int", "x")] (Call true "socket_utility_close_other_fds" ["x"]));
  (* 255 *) DFun (Wrap "socket_utility_hton64" "int64_t" false [("int64_t", "x")] (Call true "socket_utility_hton64" ["x"]));
  (* 258 *) DFun (Wrap "socket_utility_ntoh64" "int64_t" false [("int64_t", "x")] (Call true "socket_utility_ntoh64" ["x"]));
  (* 261 *) DFun (Wrap "socket_utility_hton32" "int32_t" false [("int32_t", "x")] (Call true "socket_utility_hton32" ["x"]));
  (* 264 *) DFun (Wrap "socket_utility_ntoh32" "int32_t" false [("int32_t", "x")] (Call true "socket_utility_ntoh32" ["x"]));
  (* 267 *) DFun (Wrap "socket_utility_hton16" "int16_t" false [("int16_t", "x")] (Call true "socket_utility_hton16" ["x"]));
  (* 270 *) DFun (Wrap "socket_utility_ntoh16" "int16_t" false [("int16_t", "x")] (Call true "socket_utility_ntoh16" ["x"]))
].
(** include/rcpr/stack.h:105-122, RCPR_IMPORT_stack *)
Definition import_stack : list entry := [
  (* 108 *) DFun (Wrap "stack_create" "status" true [("RCPR_SYM(stack)**", "x"); ("RCPR_SYM(allocator)*", "y"); ("size_t", "z")] (Call true "stack_create" ["x"; "y"; "z"]));
  (* 111 *) DFun (Wrap "stack_resource_handle" "RCPR_SYM(resource)*" false [("RCPR_SYM(stack)*", "x")] (Call true "stack_resource_handle" ["x"]));
  (* 114 *) DFun (Wrap "prop_stack_valid" "bool" false [("const RCPR_SYM(stack)*", "x")] (Call true "prop_stack_valid" ["x"]))
].
(** include/rcpr/string.h:555-621, RCPR_IMPORT_string *)
Definition import_string : list entry := [
  (* 557 *) DType "string_iterator" "string_iterator";
  (* 558 *) DFun (Wrap "is_whitespace" "bool" false [("int", "x")] (Call true "is_whitespace" ["x"]));
  (* 562 *) DFun (Wrap "left_trim" "void" false [("char*", "x")] (Call false "left_trim" ["x"]));
  (* 566 *) DFun (Wrap "right_trim" "void" false [("char*", "x")] (Call false "right_trim" ["x"]));
  (* 570 *) DFun (Wrap "trim" "void" false [("char*", "x")] (Call false "trim" ["x"]));
  (* 574 *) DFun (Wrap "words" "status" true [("const char**", "x"); ("RCPR_SYM(string_iterator)*", "y"); ("char*", "z")] (Call true "words" ["x"; "y"; "z"]));
  (* 578 *) DFun (Wrap "split" "status" true [("const char**", "w"); ("const char**", "x"); ("char*", "y"); ("int", "z")] (Call true "split" ["w"; "x"; "y"; "z"]));
  (* 582 *) DFun (Wrap "multisplit" "status" true [("const char**", "w"); ("RCPR_SYM(string_iterator)*", "x"); ("char*", "y"); ("bool(*)(int)", "z")] (Call true "multisplit" ["w"; "x"; "y"; "z"]));
  (* 587 *) DFun (Wrap "chomp" "void" false [("char*", "x")] (Call false "chomp" ["x"]));
  (* 591 *) DFun (Wrap "starts_with" "bool" false [("const char*", "x"); ("const char*", "y")] (Call true "starts_with" ["x"; "y"]));
  (* 594 *) DFun (Wrap "ends_with" "bool" false [("const char*", "x"); ("int", "y")] (Call true "ends_with" ["x"; "y"]));
  (* 597 *) DFun (Wrap "strdup" "status" true [("char**", "x"); ("RCPR_SYM(allocator)*", "y"); ("const char*", "z")] (Call true "strdup" ["x"; "y"; "z"]));
  (* 601 *) DFun (Wrap "strcatv" "status" true [("char**", "x"); ("RCPR_SYM(allocator)*", "y"); ("const char*", "z"); ("...", "...")] (CallV "z" "vstrcat" ["x"; "y"; "z"]));
  (* 611 *) DFun (Wrap "vstrcat" "status" true [("char**", "w"); ("RCPR_SYM(allocator)*", "x"); ("const char*", "y"); ("va_list", "z")] (Call true "vstrcat" ["w"; "x"; "y"; "z"]))
].
(** include/rcpr/thread.h:411-474, RCPR_IMPORT_thread *)
Definition import_thread : list entry := [
  (* 413 *) DType "thread" "thread";
  (* 414 *) DType "thread_mutex" "thread_mutex";
  (* 415 *) DType "thread_mutex_lock" "thread_mutex_lock";
  (* 416 *) DType "thread_cond" "thread_cond";
  (* 417 *) DType "thread_fn" "thread_fn";
  (* 418 *) DFun (Wrap "thread_create" "status" true [("RCPR_SYM(thread)**", "v"); ("RCPR_SYM(allocator)*", "w"); ("size_t", "x"); ("void*", "y"); ("RCPR_SYM(thread_fn)", "z")] (Call true "thread_create" ["v"; "w"; "x"; "y"; "z"]));
  (* 422 *) DFun (Wrap "thread_mutex_create" "status" true [("RCPR_SYM(thread_mutex)**", "x"); ("RCPR_SYM(allocator)*", "y")] (Call true "thread_mutex_create" ["x"; "y"]));
  (* 425 *) DFun (Wrap "thread_cond_create" "status" true [("RCPR_SYM(thread_cond)**", "x"); ("RCPR_SYM(allocator)*", "y")] (Call true "thread_cond_create" ["x"; "y"]));
  (* 428 *) DFun (Wrap "thread_mutex_lock_acquire" "status" true [("RCPR_SYM(thread_mutex_lock)**", "x"); ("RCPR_SYM(thread_mutex)*", "y")] (Call true "thread_mutex_lock_acquire" ["x"; "y"]));
  (* 432 *) DFun (Wrap "thread_cond_wait" "status" true [("RCPR_SYM(thread_mutex_lock)**", "x"); ("RCPR_SYM(thread_cond)*", "y")] (Call true "thread_cond_wait" ["x"; "y"]));
  (* 435 *) DFun (Wrap "thread_cond_signal_one" "status" true [("RCPR_SYM(thread_mutex_lock)*", "x"); ("RCPR_SYM(thread_cond)*", "y")] (Call true "thread_cond_signal_one" ["x"; "y"]));
  (* 439 *) DFun (Wrap "thread_cond_signal_all" "status" true [("RCPR_SYM(thread_mutex_lock)*", "x"); ("RCPR_SYM(thread_cond)*", "y")] (Call true "thread_cond_signal_all" ["x"; "y"]));
  (* 443 *) DFun (Wrap "thread_resource_handle" "RCPR_SYM(resource)*" false [("RCPR_SYM(thread)*", "x")] (Call true "thread_resource_handle" ["x"]));
  (* 446 *) DFun (Wrap "thread_mutex_resource_handle" "RCPR_SYM(resource)*" false [("RCPR_SYM(thread_mutex)*", "x")] (Call true "thread_mutex_resource_handle" ["x"]));
  (* 450 *) DFun (Wrap "thread_cond_resource_handle" "RCPR_SYM(resource)*" false [("RCPR_SYM(thread_cond)*", "x")] (Call true "thread_cond_resource_handle" ["x"]));
  (* 453 *) DFun (Wrap "thread_mutex_lock_resource_handle" "RCPR_SYM(resource)*" false [("RCPR_SYM(thread_mutex_lock)*", "x")] (Call true "thread_mutex_lock_resource_handle" ["x"]));
  (* 457 *) DFun (Wrap "prop_thread_valid" "bool" false [("const RCPR_SYM(thread)*", "x")] (Call true "prop_thread_valid" ["x"]));
  (* 460 *) DFun (Wrap "prop_thread_mutex_valid" "bool" false [("const RCPR_SYM(thread_mutex)*", "x")] (Call true "prop_thread_mutex_valid" ["x"]));
  (* 463 *) DFun (Wrap "prop_thread_cond_valid" "bool" false [("const RCPR_SYM(thread_cond)*", "x")] (Call true "prop_thread_cond_valid" ["x"]));
  (* 466 *) DFun (Wrap "prop_thread_mutex_lock_valid" "bool" false [("const RCPR_SYM(thread_mutex_lock)*", "x")] (Call true "prop_thread_mutex_lock_valid" ["x"]))
].
(** include/rcpr/uuid.h:156-178, RCPR_IMPORT_uuid *)
Definition import_uuid : list entry := [
  (* 158 *) DType "rcpr_uuid" "rcpr_uuid";
  (* 159 *) DFun (Wrap "rcpr_uuid_to_string" "status" true [("char**", "x"); ("RCPR_SYM(allocator)*", "y"); ("const RCPR_SYM(rcpr_uuid)*", "z")] (Call true "rcpr_uuid_to_string" ["x"; "y"; "z"]));
  (* 162 *) DFun (Wrap "rcpr_uuid_parse_string" "status" true [("RCPR_SYM(rcpr_uuid)*", "x"); ("const char*", "y")] (Call true "rcpr_uuid_parse_string" ["x"; "y"]));
  (* 166 *) DFun (Wrap "rcpr_uuid_parse_raw_string" "status" true [("RCPR_SYM(rcpr_uuid)*", "x"); ("const char*", "y"); ("size_t", "z")] (Call true "rcpr_uuid_parse_raw_string" ["x"; "y"; "z"]));
  (* 170 *) DFun (Wrap "prop_uuid_valid" "bool" false [("const RCPR_SYM(rcpr_uuid)*", "x")] (Call true "prop_uuid_valid" ["x"]))
].
(** include/rcpr/vtable.h:82-92, RCPR_IMPORT_vtable *)
Definition import_vtable : list entry := [
  (* 84 *) DFun (Wrap "vtable_range_valid" "bool" false [("const void*", "ptr")] (Other))
].

(** Every header with an import macro. *)
Definition headers : list (string * list entry) := [
  ("allocator", import_allocator);
  ("auto_reset_trigger", import_auto_reset_trigger);
  ("bigint", import_bigint);
  ("compare", import_compare);
  ("condition", import_condition);
  ("fiber", import_fiber);
  ("list", import_list);
  ("message", import_message);
  ("psock", import_psock);
  ("queue", import_queue);
  ("rbtree", import_rbtree);
  ("resource", import_resource);
  ("slist", import_slist);
  ("socket_utilities", import_socket_utilities);
  ("stack", import_stack);
  ("string", import_string);
  ("thread", import_thread);
  ("uuid", import_uuid);
  ("vtable", import_vtable)
].

(** The functions the same headers declare: name, type of the result, whether it must be checked, types of the parameters. *)
Definition prototypes : list proto := [
  (* allocator.h:58 *) Proto "property_allocator_valid" "bool" false ["const RCPR_SYM(allocator)*"];
  (* allocator.h:87 *) Proto "malloc_allocator_create" "status" true ["RCPR_SYM(allocator)**"];
  (* allocator.h:149 *) Proto "bump_allocator_create" "status" true ["RCPR_SYM(allocator)**"; "void*"; "size_t"];
  (* allocator.h:211 *) Proto "allocator_allocate" "status" true ["RCPR_SYM(allocator)*"; "void**"; "size_t"];
  (* allocator.h:264 *) Proto "allocator_reclaim" "status" true ["RCPR_SYM(allocator)*"; "void*"];
  (* allocator.h:312 *) Proto "allocator_reallocate" "status" true ["RCPR_SYM(allocator)*"; "void**"; "size_t"];
  (* allocator.h:367 *) Proto "allocator_control" "status" true ["RCPR_SYM(allocator)*"; "int"; "void*"; "size_t"];
  (* allocator.h:403 *) Proto "allocator_resource_handle" "RCPR_SYM(resource)*" false ["RCPR_SYM(allocator)*"];
  (* auto_reset_trigger.h:48 *) Proto "property_auto_reset_trigger_valid" "bool" false ["const RCPR_SYM(auto_reset_trigger)*"];
  (* auto_reset_trigger.h:86 *) Proto "auto_reset_trigger_create" "status" true ["RCPR_SYM(auto_reset_trigger)**"; "RCPR_SYM(allocator)*"];
  (* auto_reset_trigger.h:137 *) Proto "auto_reset_trigger_signal" "void" false ["RCPR_SYM(auto_reset_trigger)*"];
  (* auto_reset_trigger.h:158 *) Proto "auto_reset_trigger_step" "void" false ["RCPR_SYM(auto_reset_trigger)*"];
  (* auto_reset_trigger.h:188 *) Proto "auto_reset_trigger_register" "status" true ["RCPR_SYM(auto_reset_trigger)*"; "RCPR_SYM(auto_reset_trigger_callback)"; "void*"];
  (* auto_reset_trigger.h:224 *) Proto "auto_reset_trigger_resource_handle" "RCPR_SYM(resource)*" false ["RCPR_SYM(auto_reset_trigger)*"];
  (* bigint.h:68 *) Proto "bigint_create_zero" "status" true ["RCPR_SYM(bigint)**"; "RCPR_SYM(allocator)*"; "size_t"];
  (* bigint.h:105 *) Proto "bigint_clone" "status" true ["RCPR_SYM(bigint)**"; "RCPR_SYM(allocator)*"; "const RCPR_SYM(bigint)*"];
  (* bigint.h:116 *) Proto "bigint_modulus_int" "int" false ["const RCPR_SYM(bigint)*"; "int"];
  (* bigint.h:124 *) Proto "bigint_divide_int" "void" false ["RCPR_SYM(bigint)*"; "int"];
  (* bigint.h:140 *) Proto "bigint_resource_handle" "RCPR_SYM(resource)*" false ["RCPR_SYM(bigint)*"];
  (* bigint.h:153 *) Proto "prop_bigint_valid" "bool" false ["const RCPR_SYM(bigint)*"];
  (* condition.h:51 *) Proto "conditional_create" "status" true ["RCPR_SYM(conditional)*"; "RCPR_SYM(fiber_scheduler_discipline)*"];
  (* condition.h:75 *) Proto "condition_discipline_get_or_create" "status" true ["RCPR_SYM(fiber_scheduler_discipline)**"; "RCPR_SYM(allocator)*"; "RCPR_SYM(fiber_scheduler)*"];
  (* condition.h:97 *) Proto "conditional_close" "status" true ["RCPR_SYM(conditional)"; "RCPR_SYM(fiber_scheduler_discipline)*"];
  (* condition.h:114 *) Proto "conditional_wait" "status" true ["RCPR_SYM(conditional)"; "RCPR_SYM(fiber_scheduler_discipline)*"];
  (* condition.h:131 *) Proto "conditional_notify_one" "status" true ["RCPR_SYM(conditional)"; "RCPR_SYM(fiber_scheduler_discipline)*"];
  (* condition.h:148 *) Proto "conditional_notify_all" "status" true ["RCPR_SYM(conditional)"; "RCPR_SYM(fiber_scheduler_discipline)*"];
  (* fiber.h:280 *) Proto "fiber_create" "status" true ["RCPR_SYM(fiber)**"; "RCPR_SYM(allocator)*"; "RCPR_SYM(fiber_scheduler)*"; "size_t"; "void*"; "RCPR_SYM(fiber_fn)"];
  (* fiber.h:320 *) Proto "fiber_create_for_thread" "status" true ["RCPR_SYM(fiber)**"; "RCPR_SYM(fiber_scheduler)*"; "RCPR_SYM(allocator)*"];
  (* fiber.h:363 *) Proto "fiber_scheduler_create" "status" true ["RCPR_SYM(fiber_scheduler)**"; "RCPR_SYM(allocator)*"; "void*"; "RCPR_SYM(fiber_scheduler_callback_fn)"];
  (* fiber.h:420 *) Proto "fiber_scheduler_create_with_disciplines" "status" true ["RCPR_SYM(fiber_scheduler)**"; "RCPR_SYM(allocator)*"];
  (* fiber.h:464 *) Proto "fiber_scheduler_discipline_create" "status" true ["RCPR_SYM(fiber_scheduler_discipline)**"; "const RCPR_SYM(rcpr_uuid)*"; "RCPR_SYM(allocator)*"; "void*"; "size_t"; "RCPR_SYM(fiber_scheduler_discipline_callback_fn)*"];
  (* fiber.h:499 *) Proto "fiber_scheduler_add" "status" true ["RCPR_SYM(fiber_scheduler)*"; "RCPR_SYM(fiber)*"];
  (* fiber.h:533 *) Proto "fiber_scheduler_discipline_add" "status" true ["RCPR_SYM(fiber_scheduler)*"; "RCPR_SYM(fiber_scheduler_discipline)*"];
  (* fiber.h:564 *) Proto "fiber_scheduler_discipline_find" "status" true ["RCPR_SYM(fiber_scheduler_discipline)**"; "RCPR_SYM(fiber_scheduler)*"; "const RCPR_SYM(rcpr_uuid)*"];
  (* fiber.h:602 *) Proto "fiber_scheduler_run" "status" true ["RCPR_SYM(fiber_scheduler)*"];
  (* fiber.h:639 *) Proto "fiber_scheduler_yield" "status" true ["RCPR_SYM(fiber_scheduler)*"; "int"; "void*"; "const RCPR_SYM(rcpr_uuid)**"; "int*"; "void**"];
  (* fiber.h:677 *) Proto "fiber_discipline_yield" "status" true ["RCPR_SYM(fiber_scheduler_discipline)*"; "int"; "void*"; "const RCPR_SYM(rcpr_uuid)**"; "int*"; "void**"];
  (* fiber.h:704 *) Proto "fiber_discipline_scheduler_get" "status" true ["RCPR_SYM(fiber_scheduler)**"; "RCPR_SYM(fiber_scheduler_discipline)*"];
  (* fiber.h:730 *) Proto "fiber_unexpected_event_callback_add" "status" true ["RCPR_SYM(fiber)*"; "RCPR_SYM(fiber_unexpected_event_callback_fn)"; "void*"];
  (* fiber.h:758 *) Proto "fiber_unexpected_event" "status" true ["RCPR_SYM(fiber)*"; "const RCPR_SYM(rcpr_uuid)*"; "int"; "void*"; "const RCPR_SYM(rcpr_uuid)*"; "int"];
  (* fiber.h:796 *) Proto "disciplined_fiber_scheduler_add_fiber_to_run_queue" "status" true ["RCPR_SYM(fiber_scheduler)*"; "RCPR_SYM(fiber)*"; "const RCPR_SYM(rcpr_uuid)*"; "int"; "void*"];
  (* fiber.h:827 *) Proto "disciplined_fiber_scheduler_set_next_fiber_to_run" "status" true ["RCPR_SYM(fiber_scheduler)*"; "RCPR_SYM(fiber)*"; "const RCPR_SYM(rcpr_uuid)*"; "int"; "void*"];
  (* fiber.h:855 *) Proto "disciplined_fiber_scheduler_set_idle_fiber" "status" true ["RCPR_SYM(fiber_scheduler)*"; "RCPR_SYM(fiber)*"];
  (* fiber.h:876 *) Proto "disciplined_fiber_scheduler_idle_fiber_yield" "status" true ["RCPR_SYM(fiber_scheduler)*"];
  (* fiber.h:904 *) Proto "disciplined_fiber_scheduler_receive_management_event" "status" true ["RCPR_SYM(fiber_scheduler)*"; "const RCPR_SYM(rcpr_uuid)**"; "int*"; "void**"];
  (* fiber.h:927 *) Proto "disciplined_fiber_scheduler_send_quiesce_request_to_fiber" "status" true ["RCPR_SYM(fiber_scheduler)*"; "RCPR_SYM(fiber)*"];
  (* fiber.h:949 *) Proto "disciplined_fiber_scheduler_send_terminate_request_to_fiber" "status" true ["RCPR_SYM(fiber_scheduler)*"; "RCPR_SYM(fiber)*"];
  (* fiber.h:969 *) Proto "disciplined_fiber_scheduler_send_quiesce_request_to_all" "status" true ["RCPR_SYM(fiber_scheduler)*"];
  (* fiber.h:989 *) Proto "disciplined_fiber_scheduler_send_terminate_request_to_all" "status" true ["RCPR_SYM(fiber_scheduler)*"];
  (* fiber.h:1015 *) Proto "disciplined_fiber_scheduler_remove_fiber" "status" true ["RCPR_SYM(fiber_scheduler)*"; "RCPR_SYM(fiber)*"];
  (* fiber.h:1040 *) Proto "disciplined_fiber_scheduler_main_fiber_get" "status" true ["RCPR_SYM(fiber)**"; "RCPR_SYM(fiber_scheduler)*"];
  (* fiber.h:1066 *) Proto "disciplined_fiber_scheduler_current_fiber_get" "status" true ["RCPR_SYM(fiber)**"; "RCPR_SYM(fiber_scheduler)*"];
  (* fiber.h:1077 *) Proto "fiber_scheduler_discipline_context_get" "void*" false ["RCPR_SYM(fiber_scheduler_discipline)*"];
  (* fiber.h:1094 *) Proto "fiber_resource_handle" "RCPR_SYM(resource)*" false ["RCPR_SYM(fiber)*"];
  (* fiber.h:1106 *) Proto "fiber_scheduler_resource_handle" "RCPR_SYM(resource)*" false ["RCPR_SYM(fiber_scheduler)*"];
  (* fiber.h:1119 *) Proto "fiber_scheduler_discipline_resource_handle" "RCPR_SYM(resource)*" false ["RCPR_SYM(fiber_scheduler_discipline)*"];
  (* fiber.h:1133 *) Proto "fiber_scheduler_from_fiber_get" "RCPR_SYM(fiber_scheduler)*" false ["RCPR_SYM(fiber)*"];
  (* fiber.h:1144 *) Proto "fiber_state_get" "uint64_t" false ["const RCPR_SYM(fiber)*"];
  (* fiber.h:1157 *) Proto "prop_fiber_valid" "bool" false ["const RCPR_SYM(fiber)*"];
  (* fiber.h:1166 *) Proto "prop_fiber_scheduler_valid" "bool" false ["const RCPR_SYM(fiber_scheduler)*"];
  (* list.h:50 *) Proto "property_list_valid" "bool" false ["const RCPR_SYM(list)*"];
  (* list.h:60 *) Proto "property_list_node_valid" "bool" false ["const RCPR_SYM(list_node)*"];
  (* list.h:95 *) Proto "list_create" "status" true ["RCPR_SYM(list)**"; "RCPR_SYM(allocator)*"];
  (* list.h:157 *) Proto "list_insert_head" "status" true ["RCPR_SYM(list)*"; "RCPR_SYM(resource)*"];
  (* list.h:207 *) Proto "list_append_tail" "status" true ["RCPR_SYM(list)*"; "RCPR_SYM(resource)*"];
  (* list.h:263 *) Proto "list_append" "status" true ["RCPR_SYM(list_node)*"; "RCPR_SYM(resource)*"];
  (* list.h:318 *) Proto "list_insert" "status" true ["RCPR_SYM(list_node)*"; "RCPR_SYM(resource)*"];
  (* list.h:375 *) Proto "list_node_child_swap" "status" true ["RCPR_SYM(list_node)*"; "RCPR_SYM(resource)**"];
  (* list.h:445 *) Proto "list_pop" "status" true ["RCPR_SYM(list)*"; "RCPR_SYM(resource)**"];
  (* list.h:501 *) Proto "list_swap" "void" false ["RCPR_SYM(list)*"; "RCPR_SYM(list)*"];
  (* list.h:538 *) Proto "list_clear" "status" true ["RCPR_SYM(list)*"];
  (* list.h:567 *) Proto "list_resource_handle" "RCPR_SYM(resource)*" false ["RCPR_SYM(list)*"];
  (* list.h:595 *) Proto "list_node_resource_handle" "RCPR_SYM(resource)*" false ["RCPR_SYM(list_node)*"];
  (* list.h:643 *) Proto "list_head" "status" true ["RCPR_SYM(list_node)**"; "RCPR_SYM(list)*"];
  (* list.h:699 *) Proto "list_tail" "status" true ["RCPR_SYM(list_node)**"; "RCPR_SYM(list)*"];
  (* list.h:732 *) Proto "list_count" "size_t" false ["RCPR_SYM(list)*"];
  (* list.h:770 *) Proto "list_node_child" "status" true ["RCPR_SYM(resource)**"; "RCPR_SYM(list_node)*"];
  (* list.h:818 *) Proto "list_node_next" "status" true ["RCPR_SYM(list_node)**"; "RCPR_SYM(list_node)*"];
  (* list.h:867 *) Proto "list_node_prev" "status" true ["RCPR_SYM(list_node)**"; "RCPR_SYM(list_node)*"];
  (* message.h:92 *) Proto "mailbox_create" "status" true ["RCPR_SYM(mailbox_address)*"; "RCPR_SYM(fiber_scheduler_discipline)*"];
  (* message.h:119 *) Proto "message_create" "status" true ["RCPR_SYM(message)**"; "RCPR_SYM(allocator)*"; "RCPR_SYM(mailbox_address)"; "RCPR_SYM(resource)*"];
  (* message.h:143 *) Proto "message_discipline_get_or_create" "status" true ["RCPR_SYM(fiber_scheduler_discipline)**"; "RCPR_SYM(allocator)*"; "RCPR_SYM(fiber_scheduler)*"];
  (* message.h:165 *) Proto "mailbox_close" "status" true ["RCPR_SYM(mailbox_address)"; "RCPR_SYM(fiber_scheduler_discipline)*"];
  (* message.h:186 *) Proto "message_send" "status" true ["RCPR_SYM(mailbox_address)"; "RCPR_SYM(message)*"; "RCPR_SYM(fiber_scheduler_discipline)*"];
  (* message.h:211 *) Proto "message_receive" "status" true ["RCPR_SYM(mailbox_address)"; "RCPR_SYM(message)**"; "RCPR_SYM(fiber_scheduler_discipline)*"];
  (* message.h:229 *) Proto "message_resource_handle" "RCPR_SYM(resource)*" false ["RCPR_SYM(message)*"];
  (* message.h:243 *) Proto "message_return_address" "RCPR_SYM(mailbox_address)" false ["const RCPR_SYM(message)*"];
  (* message.h:263 *) Proto "message_payload" "RCPR_SYM(resource)*" false ["RCPR_SYM(message)*"; "bool"];
  (* message.h:278 *) Proto "prop_message_valid" "bool" false ["const RCPR_SYM(message)*"];
  (* psock.h:391 *) Proto "psock_create_from_descriptor" "status" true ["RCPR_SYM(psock)**"; "RCPR_SYM(allocator)*"; "int"];
  (* psock.h:456 *) Proto "psock_create_wrap_async" "status" true ["RCPR_SYM(psock)**"; "RCPR_SYM(allocator)*"; "RCPR_SYM(fiber)*"; "RCPR_SYM(psock)*"];
  (* psock.h:502 *) Proto "psock_create_from_hostname_and_port" "status" true ["RCPR_SYM(psock)**"; "RCPR_SYM(allocator)*"; "const char*"; "unsigned int"];
  (* psock.h:547 *) Proto "psock_create_from_listen_address" "status" true ["RCPR_SYM(psock)**"; "RCPR_SYM(allocator)*"; "const struct sockaddr*"; "socklen_t"];
  (* psock.h:592 *) Proto "psock_create_from_buffer" "status" true ["RCPR_SYM(psock)**"; "RCPR_SYM(allocator)*"; "const char*"; "size_t"];
  (* psock.h:638 *) Proto "psock_create_from_user_methods" "status" true ["RCPR_SYM(psock)**"; "RCPR_SYM(allocator)*"; "void*"; "const RCPR_SYM(psock_vtable)*"];
  (* psock.h:676 *) Proto "psock_br_create_from_psock" "status" true ["RCPR_SYM(psock_br)**"; "RCPR_SYM(allocator)*"; "RCPR_SYM(psock)*"];
  (* psock.h:715 *) Proto "psock_read_boxed_int64" "status" true ["RCPR_SYM(psock)*"; "int64_t*"];
  (* psock.h:750 *) Proto "psock_read_boxed_uint64" "status" true ["RCPR_SYM(psock)*"; "uint64_t*"];
  (* psock.h:785 *) Proto "psock_read_boxed_int32" "status" true ["RCPR_SYM(psock)*"; "int32_t*"];
  (* psock.h:820 *) Proto "psock_read_boxed_uint32" "status" true ["RCPR_SYM(psock)*"; "uint32_t*"];
  (* psock.h:855 *) Proto "psock_read_boxed_int16" "status" true ["RCPR_SYM(psock)*"; "int16_t*"];
  (* psock.h:890 *) Proto "psock_read_boxed_uint16" "status" true ["RCPR_SYM(psock)*"; "uint16_t*"];
  (* psock.h:925 *) Proto "psock_read_boxed_int8" "status" true ["RCPR_SYM(psock)*"; "int8_t*"];
  (* psock.h:960 *) Proto "psock_read_boxed_uint8" "status" true ["RCPR_SYM(psock)*"; "uint8_t*"];
  (* psock.h:995 *) Proto "psock_read_boxed_bool" "status" true ["RCPR_SYM(psock)*"; "bool*"];
  (* psock.h:1040 *) Proto "psock_read_boxed_string" "status" true ["RCPR_SYM(psock)*"; "RCPR_SYM(allocator)*"; "char**"; "size_t*"];
  (* psock.h:1084 *) Proto "psock_read_boxed_data" "status" true ["RCPR_SYM(psock)*"; "RCPR_SYM(allocator)*"; "void**"; "size_t*"];
  (* psock.h:1112 *) Proto "psock_write_boxed_int64" "status" true ["RCPR_SYM(psock)*"; "int64_t"];
  (* psock.h:1139 *) Proto "psock_write_boxed_uint64" "status" true ["RCPR_SYM(psock)*"; "uint64_t"];
  (* psock.h:1166 *) Proto "psock_write_boxed_int32" "status" true ["RCPR_SYM(psock)*"; "int32_t"];
  (* psock.h:1193 *) Proto "psock_write_boxed_uint32" "status" true ["RCPR_SYM(psock)*"; "uint32_t"];
  (* psock.h:1220 *) Proto "psock_write_boxed_int16" "status" true ["RCPR_SYM(psock)*"; "int16_t"];
  (* psock.h:1247 *) Proto "psock_write_boxed_uint16" "status" true ["RCPR_SYM(psock)*"; "uint16_t"];
  (* psock.h:1274 *) Proto "psock_write_boxed_int8" "status" true ["RCPR_SYM(psock)*"; "int8_t"];
  (* psock.h:1301 *) Proto "psock_write_boxed_uint8" "status" true ["RCPR_SYM(psock)*"; "uint8_t"];
  (* psock.h:1326 *) Proto "psock_write_boxed_bool" "status" true ["RCPR_SYM(psock)*"; "bool"];
  (* psock.h:1352 *) Proto "psock_write_boxed_string" "status" true ["RCPR_SYM(psock)*"; "const char*"];
  (* psock.h:1380 *) Proto "psock_write_boxed_data" "status" true ["RCPR_SYM(psock)*"; "const void*"; "size_t"];
  (* psock.h:1420 *) Proto "psock_read_raw" "status" true ["RCPR_SYM(psock)*"; "void*"; "size_t*"];
  (* psock.h:1445 *) Proto "psock_read_block" "status" true ["RCPR_SYM(psock)*"];
  (* psock.h:1467 *) Proto "psock_write_block" "status" true ["RCPR_SYM(psock)*"];
  (* psock.h:1502 *) Proto "psock_read_raw_int64" "status" true ["RCPR_SYM(psock)*"; "int64_t*"];
  (* psock.h:1538 *) Proto "psock_read_raw_uint64" "status" true ["RCPR_SYM(psock)*"; "uint64_t*"];
  (* psock.h:1574 *) Proto "psock_read_raw_int32" "status" true ["RCPR_SYM(psock)*"; "int32_t*"];
  (* psock.h:1610 *) Proto "psock_read_raw_uint32" "status" true ["RCPR_SYM(psock)*"; "uint32_t*"];
  (* psock.h:1646 *) Proto "psock_read_raw_int16" "status" true ["RCPR_SYM(psock)*"; "int16_t*"];
  (* psock.h:1682 *) Proto "psock_read_raw_uint16" "status" true ["RCPR_SYM(psock)*"; "uint16_t*"];
  (* psock.h:1718 *) Proto "psock_read_raw_int8" "status" true ["RCPR_SYM(psock)*"; "int8_t*"];
  (* psock.h:1754 *) Proto "psock_read_raw_uint8" "status" true ["RCPR_SYM(psock)*"; "uint8_t*"];
  (* psock.h:1788 *) Proto "psock_read_raw_bool" "status" true ["RCPR_SYM(psock)*"; "bool*"];
  (* psock.h:1828 *) Proto "psock_read_raw_data" "status" true ["RCPR_SYM(psock)*"; "RCPR_SYM(allocator)*"; "void**"; "size_t"];
  (* psock.h:1859 *) Proto "psock_read_raw_descriptor" "status" true ["RCPR_SYM(psock)*"; "int*"];
  (* psock.h:1887 *) Proto "psock_write_raw_int64" "status" true ["RCPR_SYM(psock)*"; "int64_t"];
  (* psock.h:1915 *) Proto "psock_write_raw_uint64" "status" true ["RCPR_SYM(psock)*"; "uint64_t"];
  (* psock.h:1943 *) Proto "psock_write_raw_int32" "status" true ["RCPR_SYM(psock)*"; "int32_t"];
  (* psock.h:1971 *) Proto "psock_write_raw_uint32" "status" true ["RCPR_SYM(psock)*"; "uint32_t"];
  (* psock.h:1999 *) Proto "psock_write_raw_int16" "status" true ["RCPR_SYM(psock)*"; "int16_t"];
  (* psock.h:2027 *) Proto "psock_write_raw_uint16" "status" true ["RCPR_SYM(psock)*"; "uint16_t"];
  (* psock.h:2055 *) Proto "psock_write_raw_int8" "status" true ["RCPR_SYM(psock)*"; "int8_t"];
  (* psock.h:2083 *) Proto "psock_write_raw_uint8" "status" true ["RCPR_SYM(psock)*"; "uint8_t"];
  (* psock.h:2109 *) Proto "psock_write_raw_bool" "status" true ["RCPR_SYM(psock)*"; "bool"];
  (* psock.h:2138 *) Proto "psock_write_raw_data" "status" true ["RCPR_SYM(psock)*"; "const void*"; "size_t"];
  (* psock.h:2168 *) Proto "psock_write_raw_descriptor" "status" true ["RCPR_SYM(psock)*"; "int"];
  (* psock.h:2212 *) Proto "psock_accept" "status" true ["RCPR_SYM(psock)*"; "int*"; "struct sockaddr*"; "socklen_t*"];
  (* psock.h:2246 *) Proto "psock_setsockopt" "status" true ["RCPR_SYM(psock)*"; "int"; "int"; "const void*"; "socklen_t"];
  (* psock.h:2289 *) Proto "psock_from_buffer_get_output_buffer" "status" true ["RCPR_SYM(psock)*"; "RCPR_SYM(allocator)*"; "void**"; "size_t*"];
  (* psock.h:2335 *) Proto "psock_br_read_line" "status" true ["void*"; "size_t*"; "RCPR_SYM(psock_br)*"];
  (* psock.h:2352 *) Proto "psock_resource_handle" "RCPR_SYM(resource)*" false ["RCPR_SYM(psock)*"];
  (* psock.h:2368 *) Proto "psock_resource_handle_to_psock" "RCPR_SYM(psock)*" false ["RCPR_SYM(resource)*"];
  (* psock.h:2381 *) Proto "psock_br_resource_handle" "RCPR_SYM(resource)*" false ["RCPR_SYM(psock_br)*"];
  (* psock.h:2395 *) Proto "psock_br_psock_adapter" "RCPR_SYM(psock)*" false ["RCPR_SYM(psock_br)*"];
  (* psock.h:2407 *) Proto "psock_socket_type" "RCPR_SYM(socket_type)" false ["RCPR_SYM(psock)*"];
  (* psock.h:2422 *) Proto "prop_psock_valid" "bool" false ["const RCPR_SYM(psock)*"];
  (* queue.h:58 *) Proto "queue_create" "status" true ["RCPR_SYM(queue)**"; "RCPR_SYM(allocator)*"];
  (* queue.h:90 *) Proto "queue_append" "status" true ["RCPR_SYM(queue)*"; "RCPR_SYM(resource)*"];
  (* queue.h:128 *) Proto "queue_pop" "status" true ["RCPR_SYM(queue)*"; "RCPR_SYM(resource)**"];
  (* queue.h:156 *) Proto "queue_insert" "status" true ["RCPR_SYM(queue)*"; "RCPR_SYM(resource)*"];
  (* queue.h:171 *) Proto "queue_count" "size_t" false ["RCPR_SYM(queue)*"];
  (* queue.h:184 *) Proto "queue_resource_handle" "RCPR_SYM(resource)*" false ["RCPR_SYM(queue)*"];
  (* queue.h:199 *) Proto "prop_queue_valid" "bool" false ["const RCPR_SYM(queue)*"];
  (* rbtree.h:76 *) Proto "rbtree_create" "status" true ["RCPR_SYM(rbtree)**"; "RCPR_SYM(allocator)*"; "RCPR_SYM(compare_fn)"; "RCPR_SYM(compare_key_fn)"; "void*"];
  (* rbtree.h:112 *) Proto "rbtree_insert" "status" true ["RCPR_SYM(rbtree)*"; "RCPR_SYM(resource)*"];
  (* rbtree.h:142 *) Proto "rbtree_find" "status" true ["RCPR_SYM(resource)**"; "RCPR_SYM(rbtree)*"; "const void*"];
  (* rbtree.h:177 *) Proto "rbtree_delete" "status" true ["RCPR_SYM(resource)**"; "RCPR_SYM(rbtree)*"; "const void*"];
  (* rbtree.h:214 *) Proto "rbtree_delete_node" "status" true ["RCPR_SYM(resource)**"; "RCPR_SYM(rbtree)*"; "RCPR_SYM(rbtree_node)*"];
  (* rbtree.h:239 *) Proto "rbtree_clear" "status" true ["RCPR_SYM(rbtree)*"];
  (* rbtree.h:261 *) Proto "rbtree_swap" "void" false ["RCPR_SYM(rbtree)*"; "RCPR_SYM(rbtree)*"];
  (* rbtree.h:276 *) Proto "rbtree_minimum_node" "RCPR_SYM(rbtree_node)*" false ["RCPR_SYM(rbtree)*"; "RCPR_SYM(rbtree_node)*"];
  (* rbtree.h:288 *) Proto "rbtree_maximum_node" "RCPR_SYM(rbtree_node)*" false ["RCPR_SYM(rbtree)*"; "RCPR_SYM(rbtree_node)*"];
  (* rbtree.h:301 *) Proto "rbtree_left_node" "RCPR_SYM(rbtree_node)*" false ["RCPR_SYM(rbtree)*"; "RCPR_SYM(rbtree_node)*"];
  (* rbtree.h:314 *) Proto "rbtree_right_node" "RCPR_SYM(rbtree_node)*" false ["RCPR_SYM(rbtree)*"; "RCPR_SYM(rbtree_node)*"];
  (* rbtree.h:327 *) Proto "rbtree_parent_node" "RCPR_SYM(rbtree_node)*" false ["RCPR_SYM(rbtree)*"; "RCPR_SYM(rbtree_node)*"];
  (* rbtree.h:339 *) Proto "rbtree_successor_node" "RCPR_SYM(rbtree_node)*" false ["RCPR_SYM(rbtree)*"; "RCPR_SYM(rbtree_node)*"];
  (* rbtree.h:351 *) Proto "rbtree_predecessor_node" "RCPR_SYM(rbtree_node)*" false ["RCPR_SYM(rbtree)*"; "RCPR_SYM(rbtree_node)*"];
  (* rbtree.h:362 *) Proto "rbtree_nil_node" "RCPR_SYM(rbtree_node)*" false ["RCPR_SYM(rbtree)*"];
  (* rbtree.h:373 *) Proto "rbtree_root_node" "RCPR_SYM(rbtree_node)*" false ["RCPR_SYM(rbtree)*"];
  (* rbtree.h:387 *) Proto "rbtree_node_value" "RCPR_SYM(resource)*" false ["RCPR_SYM(rbtree)*"; "RCPR_SYM(rbtree_node)*"];
  (* rbtree.h:398 *) Proto "rbtree_count" "size_t" false ["RCPR_SYM(rbtree)*"];
  (* rbtree.h:411 *) Proto "rbtree_resource_handle" "RCPR_SYM(resource)*" false ["RCPR_SYM(rbtree)*"];
  (* rbtree.h:426 *) Proto "prop_rbtree_valid" "bool" false ["const RCPR_SYM(rbtree)*"];
  (* resource.h:53 *) Proto "prop_resource_valid" "bool" false ["const RCPR_SYM(resource)*"];
  (* resource.h:92 *) Proto "resource_release" "status" true ["RCPR_SYM(resource)*"];
  (* resource.h:158 *) Proto "resource_init" "void" false ["RCPR_SYM(resource)*"; "const RCPR_SYM(resource_vtable)*"];
  (* resource.h:189 *) Proto "resource_vtable_read" "status" true ["const RCPR_SYM(resource_vtable)**"; "const RCPR_SYM(resource)*"];
  (* slist.h:47 *) Proto "property_slist_valid" "bool" false ["const RCPR_SYM(slist)*"];
  (* slist.h:57 *) Proto "property_slist_node_valid" "bool" false ["const RCPR_SYM(slist_node)*"];
  (* slist.h:92 *) Proto "slist_create" "status" true ["RCPR_SYM(slist)**"; "RCPR_SYM(allocator)*"];
  (* slist.h:154 *) Proto "slist_insert_head" "status" true ["RCPR_SYM(slist)*"; "RCPR_SYM(resource)*"];
  (* slist.h:204 *) Proto "slist_append_tail" "status" true ["RCPR_SYM(slist)*"; "RCPR_SYM(resource)*"];
  (* slist.h:260 *) Proto "slist_append" "status" true ["RCPR_SYM(slist_node)*"; "RCPR_SYM(resource)*"];
  (* slist.h:317 *) Proto "slist_node_child_swap" "status" true ["RCPR_SYM(slist_node)*"; "RCPR_SYM(resource)**"];
  (* slist.h:387 *) Proto "slist_pop" "status" true ["RCPR_SYM(slist)*"; "RCPR_SYM(resource)**"];
  (* slist.h:460 *) Proto "slist_node_next_pop" "status" true ["RCPR_SYM(slist_node)*"; "RCPR_SYM(resource)**"];
  (* slist.h:517 *) Proto "slist_swap" "void" false ["RCPR_SYM(slist)*"; "RCPR_SYM(slist)*"];
  (* slist.h:554 *) Proto "slist_clear" "status" true ["RCPR_SYM(slist)*"];
  (* slist.h:584 *) Proto "slist_resource_handle" "RCPR_SYM(resource)*" false ["RCPR_SYM(slist)*"];
  (* slist.h:612 *) Proto "slist_node_resource_handle" "RCPR_SYM(resource)*" false ["RCPR_SYM(slist_node)*"];
  (* slist.h:660 *) Proto "slist_head" "status" true ["RCPR_SYM(slist_node)**"; "RCPR_SYM(slist)*"];
  (* slist.h:716 *) Proto "slist_tail" "status" true ["RCPR_SYM(slist_node)**"; "RCPR_SYM(slist)*"];
  (* slist.h:750 *) Proto "slist_count" "size_t" false ["RCPR_SYM(slist)*"];
  (* slist.h:789 *) Proto "slist_node_child" "status" true ["RCPR_SYM(resource)**"; "RCPR_SYM(slist_node)*"];
  (* slist.h:837 *) Proto "slist_node_next" "status" true ["RCPR_SYM(slist_node)**"; "RCPR_SYM(slist_node)*"];
  (* socket_utilities.h:40 *) Proto "socket_utility_socketpair" "status" true ["int"; "int"; "int"; "int*"; "int*"];
  (* socket_utilities.h:52 *) Proto "socket_utility_close_standard_fds" "status" true [];
  (* socket_utilities.h:68 *) Proto "socket_utility_move_descriptors" "status" true ["int"; "int*"; "..."];
  (* socket_utilities.h:86 *) Proto "vsocket_utility_move_descriptors" "status" true ["int"; "int*"; "va_list"];
  (* socket_utilities.h:106 *) Proto "socket_utility_setfds" "status" true ["int"; "int"; "..."];
  (* socket_utilities.h:126 *) Proto "vsocket_utility_setfds" "status" true ["int"; "int"; "va_list"];
  (* socket_utilities.h:139 *) Proto "socket_utility_close_other_fds" "status" true ["int"];
  (* socket_utilities.h:151 *) Proto "socket_utility_set_nonblock" "status" true ["int"];
  (* socket_utilities.h:162 *) Proto "socket_utility_hton64" "int64_t" false ["int64_t"];
  (* socket_utilities.h:173 *) Proto "socket_utility_ntoh64" "int64_t" false ["int64_t"];
  (* socket_utilities.h:184 *) Proto "socket_utility_hton32" "int32_t" false ["int32_t"];
  (* socket_utilities.h:195 *) Proto "socket_utility_ntoh32" "int32_t" false ["int32_t"];
  (* socket_utilities.h:206 *) Proto "socket_utility_hton16" "int16_t" false ["int16_t"];
  (* socket_utilities.h:217 *) Proto "socket_utility_ntoh16" "int16_t" false ["int16_t"];
  (* stack.h:67 *) Proto "stack_create" "status" true ["RCPR_SYM(stack)**"; "RCPR_SYM(allocator)*"; "size_t"];
  (* stack.h:84 *) Proto "stack_resource_handle" "RCPR_SYM(resource)*" false ["RCPR_SYM(stack)*"];
  (* stack.h:99 *) Proto "prop_stack_valid" "bool" false ["const RCPR_SYM(stack)*"];
  (* string.h:47 *) Proto "is_whitespace" "bool" false ["int"];
  (* string.h:61 *) Proto "left_trim" "void" false ["char*"];
  (* string.h:89 *) Proto "right_trim" "void" false ["char*"];
  (* string.h:119 *) Proto "trim" "void" false ["char*"];
  (* string.h:170 *) Proto "words" "status" true ["const char**"; "RCPR_SYM(string_iterator)*"; "char*"];
  (* string.h:242 *) Proto "split" "status" true ["const char**"; "const char**"; "char*"; "int"];
  (* string.h:323 *) Proto "multisplit" "status" true ["const char**"; "RCPR_SYM(string_iterator)*"; "char*"; "bool(*)(int)"];
  (* string.h:385 *) Proto "chomp" "void" false ["char*"];
  (* string.h:409 *) Proto "starts_with" "bool" false ["const char*"; "const char*"];
  (* string.h:434 *) Proto "ends_with" "bool" false ["const char*"; "int"];
  (* string.h:469 *) Proto "strdup" "status" true ["char**"; "RCPR_SYM(allocator)*"; "const char*"];
  (* string.h:523 *) Proto "strcatv" "status" true ["char**"; "RCPR_SYM(allocator)*"; "const char*"; "..."];
  (* string.h:546 *) Proto "vstrcat" "status" true ["char**"; "RCPR_SYM(allocator)*"; "const char*"; "va_list"];
  (* thread.h:97 *) Proto "thread_create" "status" true ["RCPR_SYM(thread)**"; "RCPR_SYM(allocator)*"; "size_t"; "void*"; "RCPR_SYM(thread_fn)"];
  (* thread.h:131 *) Proto "thread_mutex_create" "status" true ["RCPR_SYM(thread_mutex)**"; "RCPR_SYM(allocator)*"];
  (* thread.h:164 *) Proto "thread_cond_create" "status" true ["RCPR_SYM(thread_cond)**"; "RCPR_SYM(allocator)*"];
  (* thread.h:204 *) Proto "thread_mutex_lock_acquire" "status" true ["RCPR_SYM(thread_mutex_lock)**"; "RCPR_SYM(thread_mutex)*"];
  (* thread.h:239 *) Proto "thread_cond_wait" "status" true ["RCPR_SYM(thread_mutex_lock)**"; "RCPR_SYM(thread_cond)*"];
  (* thread.h:270 *) Proto "thread_cond_signal_one" "status" true ["RCPR_SYM(thread_mutex_lock)*"; "RCPR_SYM(thread_cond)*"];
  (* thread.h:301 *) Proto "thread_cond_signal_all" "status" true ["RCPR_SYM(thread_mutex_lock)*"; "RCPR_SYM(thread_cond)*"];
  (* thread.h:318 *) Proto "thread_resource_handle" "RCPR_SYM(resource)*" false ["RCPR_SYM(thread)*"];
  (* thread.h:331 *) Proto "thread_mutex_resource_handle" "RCPR_SYM(resource)*" false ["RCPR_SYM(thread_mutex)*"];
  (* thread.h:344 *) Proto "thread_cond_resource_handle" "RCPR_SYM(resource)*" false ["RCPR_SYM(thread_cond)*"];
  (* thread.h:357 *) Proto "thread_mutex_lock_resource_handle" "RCPR_SYM(resource)*" false ["RCPR_SYM(thread_mutex_lock)*"];
  (* thread.h:372 *) Proto "prop_thread_valid" "bool" false ["const RCPR_SYM(thread)*"];
  (* thread.h:383 *) Proto "prop_thread_mutex_valid" "bool" false ["const RCPR_SYM(thread_mutex)*"];
  (* thread.h:394 *) Proto "prop_thread_cond_valid" "bool" false ["const RCPR_SYM(thread_cond)*"];
  (* thread.h:405 *) Proto "prop_thread_mutex_lock_valid" "bool" false ["const RCPR_SYM(thread_mutex_lock)*"];
  (* uuid.h:68 *) Proto "rcpr_uuid_to_string" "status" true ["char**"; "RCPR_SYM(allocator)*"; "const RCPR_SYM(rcpr_uuid)*"];
  (* uuid.h:101 *) Proto "rcpr_uuid_parse_string" "status" true ["RCPR_SYM(rcpr_uuid)*"; "const char*"];
  (* uuid.h:135 *) Proto "rcpr_uuid_parse_raw_string" "status" true ["RCPR_SYM(rcpr_uuid)*"; "const char*"; "size_t"];
  (* uuid.h:150 *) Proto "prop_uuid_valid" "bool" false ["const RCPR_SYM(rcpr_uuid)*"]
].

(** The functions among these that the sources of the library define; comments give the file under src/. *)
Definition defined_functions : list string := [
  (* allocator/allocator_allocate.c:42 *) "allocator_allocate";
  (* allocator/allocator_control.c:40 *) "allocator_control";
  (* allocator/allocator_reallocate.c:48 *) "allocator_reallocate";
  (* allocator/allocator_reclaim.c:40 *) "allocator_reclaim";
  (* allocator/allocator_resource_handle.c:24 *) "allocator_resource_handle";
  (* allocator/bump_allocator_create.c:75 *) "bump_allocator_create";
  (* allocator/malloc_allocator_create.c:60 *) "malloc_allocator_create";
  (* auto_reset_trigger/auto_reset_trigger_create.c:61 *) "auto_reset_trigger_create";
  (* auto_reset_trigger/auto_reset_trigger_register.c:28 *) "auto_reset_trigger_register";
  (* auto_reset_trigger/auto_reset_trigger_resource_handle.c:23 *) "auto_reset_trigger_resource_handle";
  (* auto_reset_trigger/auto_reset_trigger_signal.c:25 *) "auto_reset_trigger_signal";
  (* auto_reset_trigger/auto_reset_trigger_step.c:20 *) "auto_reset_trigger_step";
  (* bigint/bigint_clone.c:53 *) "bigint_clone";
  (* bigint/bigint_create_zero.c:65 *) "bigint_create_zero";
  (* bigint/bigint_resource_handle.c:29 *) "bigint_resource_handle";
  (* condition/conditional_close.c:33 *) "conditional_close";
  (* condition/conditional_create.c:36 *) "conditional_create";
  (* condition/conditional_notify_all.c:32 *) "conditional_notify_all";
  (* condition/conditional_notify_one.c:32 *) "conditional_notify_one";
  (* condition/conditional_wait.c:32 *) "conditional_wait";
  (* condition/fiber/condition_discipline_get_or_create.c:41 *) "condition_discipline_get_or_create";
  (* fiber/common/disciplined_fiber_scheduler_add_fiber_to_run_queue.c:45 *) "disciplined_fiber_scheduler_add_fiber_to_run_queue";
  (* fiber/common/disciplined_fiber_scheduler_current_fiber_get.c:41 *) "disciplined_fiber_scheduler_current_fiber_get";
  (* fiber/common/disciplined_fiber_scheduler_idle_fiber_yield.c:36 *) "disciplined_fiber_scheduler_idle_fiber_yield";
  (* fiber/common/disciplined_fiber_scheduler_main_fiber_get.c:40 *) "disciplined_fiber_scheduler_main_fiber_get";
  (* fiber/common/disciplined_fiber_scheduler_receive_management_event.c:44 *) "disciplined_fiber_scheduler_receive_management_event";
  (* fiber/common/disciplined_fiber_scheduler_remove_fiber.c:43 *) "disciplined_fiber_scheduler_remove_fiber";
  (* fiber/common/disciplined_fiber_scheduler_send_quiesce_request_to_all.c:39 *) "disciplined_fiber_scheduler_send_quiesce_request_to_all";
  (* fiber/common/disciplined_fiber_scheduler_send_quiesce_request_to_fiber.c:41 *) "disciplined_fiber_scheduler_send_quiesce_request_to_fiber";
  (* fiber/common/disciplined_fiber_scheduler_send_terminate_request_to_all.c:39 *) "disciplined_fiber_scheduler_send_terminate_request_to_all";
  (* fiber/common/disciplined_fiber_scheduler_send_terminate_request_to_fiber.c:41 *) "disciplined_fiber_scheduler_send_terminate_request_to_fiber";
  (* fiber/common/disciplined_fiber_scheduler_set_idle_fiber.c:42 *) "disciplined_fiber_scheduler_set_idle_fiber";
  (* fiber/common/disciplined_fiber_scheduler_set_next_fiber_to_run.c:46 *) "disciplined_fiber_scheduler_set_next_fiber_to_run";
  (* fiber/common/fiber_create.c:72 *) "fiber_create";
  (* fiber/common/fiber_create_for_thread.c:64 *) "fiber_create_for_thread";
  (* fiber/common/fiber_discipline_scheduler_get.c:41 *) "fiber_discipline_scheduler_get";
  (* fiber/common/fiber_discipline_yield.c:50 *) "fiber_discipline_yield";
  (* fiber/common/fiber_resource_handle.c:25 *) "fiber_resource_handle";
  (* fiber/common/fiber_scheduler_add.c:45 *) "fiber_scheduler_add";
  (* fiber/common/fiber_scheduler_create.c:69 *) "fiber_scheduler_create";
  (* fiber/common/fiber_scheduler_create_with_disciplines.c:130 *) "fiber_scheduler_create_with_disciplines";
  (* fiber/common/fiber_scheduler_discipline_add.c:52 *) "fiber_scheduler_discipline_add";
  (* fiber/common/fiber_scheduler_discipline_context_get.c:27 *) "fiber_scheduler_discipline_context_get";
  (* fiber/common/fiber_scheduler_discipline_create.c:72 *) "fiber_scheduler_discipline_create";
  (* fiber/common/fiber_scheduler_discipline_find.c:48 *) "fiber_scheduler_discipline_find";
  (* fiber/common/fiber_scheduler_discipline_resource_handle.c:25 *) "fiber_scheduler_discipline_resource_handle";
  (* fiber/common/fiber_scheduler_from_fiber_get.c:29 *) "fiber_scheduler_from_fiber_get";
  (* fiber/common/fiber_scheduler_resource_handle.c:25 *) "fiber_scheduler_resource_handle";
  (* fiber/common/fiber_scheduler_run.c:52 *) "fiber_scheduler_run";
  (* fiber/common/fiber_scheduler_yield.c:53 *) "fiber_scheduler_yield";
  (* fiber/common/fiber_state_get.c:26 *) "fiber_state_get";
  (* fiber/common/fiber_unexpected_event.c:40 *) "fiber_unexpected_event";
  (* fiber/common/fiber_unexpected_event_callback_add.c:37 *) "fiber_unexpected_event_callback_add";
  (* list/list_append.c:52 *) "list_append";
  (* list/list_append_tail.c:46 *) "list_append_tail";
  (* list/list_clear.c:32 *) "list_clear";
  (* list/list_count.c:27 *) "list_count";
  (* list/list_create.c:62 *) "list_create";
  (* list/list_head.c:49 *) "list_head";
  (* list/list_insert.c:50 *) "list_insert";
  (* list/list_insert_head.c:46 *) "list_insert_head";
  (* list/list_node_child.c:41 *) "list_node_child";
  (* list/list_node_child_swap.c:53 *) "list_node_child_swap";
  (* list/list_node_next.c:38 *) "list_node_next";
  (* list/list_node_prev.c:39 *) "list_node_prev";
  (* list/list_node_resource_handle.c:29 *) "list_node_resource_handle";
  (* list/list_pop.c:55 *) "list_pop";
  (* list/list_resource_handle.c:30 *) "list_resource_handle";
  (* list/list_swap.c:39 *) "list_swap";
  (* list/list_tail.c:49 *) "list_tail";
  (* message/mailbox_close.c:33 *) "mailbox_close";
  (* message/mailbox_create.c:35 *) "mailbox_create";
  (* message/message_create.c:52 *) "message_create";
  (* message/message_discipline_get_or_create.c:41 *) "message_discipline_get_or_create";
  (* message/message_payload.c:35 *) "message_payload";
  (* message/message_receive.c:40 *) "message_receive";
  (* message/message_resource_handle.c:27 *) "message_resource_handle";
  (* message/message_return_address.c:25 *) "message_return_address";
  (* message/message_send.c:35 *) "message_send";
  (* platform/pthread/thread/thread_cond_create.c:62 *) "thread_cond_create";
  (* platform/pthread/thread/thread_cond_resource_handle.c:29 *) "thread_cond_resource_handle";
  (* platform/pthread/thread/thread_cond_signal_all.c:47 *) "thread_cond_signal_all";
  (* platform/pthread/thread/thread_cond_signal_one.c:47 *) "thread_cond_signal_one";
  (* platform/pthread/thread/thread_cond_wait.c:51 *) "thread_cond_wait";
  (* platform/pthread/thread/thread_create.c:73 *) "thread_create";
  (* platform/pthread/thread/thread_mutex_create.c:69 *) "thread_mutex_create";
  (* platform/pthread/thread/thread_mutex_lock_acquire.c:52 *) "thread_mutex_lock_acquire";
  (* platform/pthread/thread/thread_mutex_lock_resource_handle.c:29 *) "thread_mutex_lock_resource_handle";
  (* platform/pthread/thread/thread_mutex_resource_handle.c:29 *) "thread_mutex_resource_handle";
  (* platform/pthread/thread/thread_resource_handle.c:29 *) "thread_resource_handle";
  (* psock/psock_accept.c:60 *) "psock_accept";
  (* psock/psock_br_create_from_psock.c:70 *) "psock_br_create_from_psock";
  (* psock/psock_br_psock_adapter.c:23 *) "psock_br_psock_adapter";
  (* psock/psock_br_read_line.c:56 *) "psock_br_read_line";
  (* psock/psock_br_resource_handle.c:22 *) "psock_br_resource_handle";
  (* psock/psock_create_from_buffer.c:81 *) "psock_create_from_buffer";
  (* psock/psock_create_from_descriptor.c:79 *) "psock_create_from_descriptor";
  (* psock/psock_create_from_hostname_and_port.c:66 *) "psock_create_from_hostname_and_port";
  (* psock/psock_create_from_listen_address.c:63 *) "psock_create_from_listen_address";
  (* psock/psock_create_from_user_methods.c:93 *) "psock_create_from_user_methods";
  (* psock/psock_create_wrap_async.c:110 *) "psock_create_wrap_async";
  (* psock/psock_from_buffer_get_output_buffer.c:64 *) "psock_from_buffer_get_output_buffer";
  (* psock/psock_read_block.c:47 *) "psock_read_block";
  (* psock/psock_read_boxed_bool.c:53 *) "psock_read_boxed_bool";
  (* psock/psock_read_boxed_data.c:64 *) "psock_read_boxed_data";
  (* psock/psock_read_boxed_int16.c:53 *) "psock_read_boxed_int16";
  (* psock/psock_read_boxed_int32.c:53 *) "psock_read_boxed_int32";
  (* psock/psock_read_boxed_int64.c:53 *) "psock_read_boxed_int64";
  (* psock/psock_read_boxed_int8.c:53 *) "psock_read_boxed_int8";
  (* psock/psock_read_boxed_string.c:65 *) "psock_read_boxed_string";
  (* psock/psock_read_boxed_uint16.c:53 *) "psock_read_boxed_uint16";
  (* psock/psock_read_boxed_uint32.c:53 *) "psock_read_boxed_uint32";
  (* psock/psock_read_boxed_uint64.c:53 *) "psock_read_boxed_uint64";
  (* psock/psock_read_boxed_uint8.c:53 *) "psock_read_boxed_uint8";
  (* psock/psock_read_raw.c:59 *) "psock_read_raw";
  (* psock/psock_read_raw_bool.c:53 *) "psock_read_raw_bool";
  (* psock/psock_read_raw_data.c:60 *) "psock_read_raw_data";
  (* psock/psock_read_raw_descriptor.c:49 *) "psock_read_raw_descriptor";
  (* psock/psock_read_raw_int16.c:56 *) "psock_read_raw_int16";
  (* psock/psock_read_raw_int32.c:56 *) "psock_read_raw_int32";
  (* psock/psock_read_raw_int64.c:56 *) "psock_read_raw_int64";
  (* psock/psock_read_raw_int8.c:55 *) "psock_read_raw_int8";
  (* psock/psock_read_raw_uint16.c:56 *) "psock_read_raw_uint16";
  (* psock/psock_read_raw_uint32.c:56 *) "psock_read_raw_uint32";
  (* psock/psock_read_raw_uint64.c:56 *) "psock_read_raw_uint64";
  (* psock/psock_read_raw_uint8.c:55 *) "psock_read_raw_uint8";
  (* psock/psock_resource_handle.c:27 *) "psock_resource_handle";
  (* psock/psock_resource_handle_to_psock.c:32 *) "psock_resource_handle_to_psock";
  (* psock/psock_setsockopt.c:48 *) "psock_setsockopt";
  (* psock/psock_socket_type.c:26 *) "psock_socket_type";
  (* psock/psock_write_block.c:45 *) "psock_write_block";
  (* psock/psock_write_boxed_bool.c:43 *) "psock_write_boxed_bool";
  (* psock/psock_write_boxed_data.c:47 *) "psock_write_boxed_data";
  (* psock/psock_write_boxed_int16.c:45 *) "psock_write_boxed_int16";
  (* psock/psock_write_boxed_int32.c:45 *) "psock_write_boxed_int32";
  (* psock/psock_write_boxed_int64.c:45 *) "psock_write_boxed_int64";
  (* psock/psock_write_boxed_int8.c:45 *) "psock_write_boxed_int8";
  (* psock/psock_write_boxed_string.c:45 *) "psock_write_boxed_string";
  (* psock/psock_write_boxed_uint16.c:45 *) "psock_write_boxed_uint16";
  (* psock/psock_write_boxed_uint32.c:45 *) "psock_write_boxed_uint32";
  (* psock/psock_write_boxed_uint64.c:45 *) "psock_write_boxed_uint64";
  (* psock/psock_write_boxed_uint8.c:45 *) "psock_write_boxed_uint8";
  (* psock/psock_write_raw_bool.c:45 *) "psock_write_raw_bool";
  (* psock/psock_write_raw_data.c:48 *) "psock_write_raw_data";
  (* psock/psock_write_raw_descriptor.c:49 *) "psock_write_raw_descriptor";
  (* psock/psock_write_raw_int16.c:48 *) "psock_write_raw_int16";
  (* psock/psock_write_raw_int32.c:48 *) "psock_write_raw_int32";
  (* psock/psock_write_raw_int64.c:48 *) "psock_write_raw_int64";
  (* psock/psock_write_raw_int8.c:47 *) "psock_write_raw_int8";
  (* psock/psock_write_raw_uint16.c:48 *) "psock_write_raw_uint16";
  (* psock/psock_write_raw_uint32.c:48 *) "psock_write_raw_uint32";
  (* psock/psock_write_raw_uint64.c:48 *) "psock_write_raw_uint64";
  (* psock/psock_write_raw_uint8.c:47 *) "psock_write_raw_uint8";
  (* queue/queue_append.c:46 *) "queue_append";
  (* queue/queue_count.c:26 *) "queue_count";
  (* queue/queue_create.c:63 *) "queue_create";
  (* queue/queue_insert.c:46 *) "queue_insert";
  (* queue/queue_pop.c:55 *) "queue_pop";
  (* queue/queue_resource_handle.c:29 *) "queue_resource_handle";
  (* rbtree/rbtree_clear.c:41 *) "rbtree_clear";
  (* rbtree/rbtree_count.c:24 *) "rbtree_count";
  (* rbtree/rbtree_create.c:76 *) "rbtree_create";
  (* rbtree/rbtree_delete.c:52 *) "rbtree_delete";
  (* rbtree/rbtree_delete_node.c:54 *) "rbtree_delete_node";
  (* rbtree/rbtree_find.c:45 *) "rbtree_find";
  (* rbtree/rbtree_insert.c:46 *) "rbtree_insert";
  (* rbtree/rbtree_left_node.c:28 *) "rbtree_left_node";
  (* rbtree/rbtree_maximum_node.c:27 *) "rbtree_maximum_node";
  (* rbtree/rbtree_minimum_node.c:27 *) "rbtree_minimum_node";
  (* rbtree/rbtree_nil_node.c:26 *) "rbtree_nil_node";
  (* rbtree/rbtree_node_value.c:29 *) "rbtree_node_value";
  (* rbtree/rbtree_parent_node.c:28 *) "rbtree_parent_node";
  (* rbtree/rbtree_predecessor_node.c:27 *) "rbtree_predecessor_node";
  (* rbtree/rbtree_resource_handle.c:26 *) "rbtree_resource_handle";
  (* rbtree/rbtree_right_node.c:28 *) "rbtree_right_node";
  (* rbtree/rbtree_root_node.c:26 *) "rbtree_root_node";
  (* rbtree/rbtree_successor_node.c:27 *) "rbtree_successor_node";
  (* rbtree/rbtree_swap.c:37 *) "rbtree_swap";
  (* resource/resource_init.c:25 *) "resource_init";
  (* resource/resource_release.c:50 *) "resource_release";
  (* resource/resource_vtable_read.c:29 *) "resource_vtable_read";
  (* slist/slist_append.c:52 *) "slist_append";
  (* slist/slist_append_tail.c:46 *) "slist_append_tail";
  (* slist/slist_clear.c:34 *) "slist_clear";
  (* slist/slist_count.c:27 *) "slist_count";
  (* slist/slist_create.c:63 *) "slist_create";
  (* slist/slist_head.c:50 *) "slist_head";
  (* slist/slist_insert_head.c:46 *) "slist_insert_head";
  (* slist/slist_node_child.c:44 *) "slist_node_child";
  (* slist/slist_node_child_swap.c:54 *) "slist_node_child_swap";
  (* slist/slist_node_next.c:41 *) "slist_node_next";
  (* slist/slist_node_next_pop.c:57 *) "slist_node_next_pop";
  (* slist/slist_node_resource_handle.c:30 *) "slist_node_resource_handle";
  (* slist/slist_pop.c:56 *) "slist_pop";
  (* slist/slist_resource_handle.c:29 *) "slist_resource_handle";
  (* slist/slist_swap.c:39 *) "slist_swap";
  (* slist/slist_tail.c:49 *) "slist_tail";
  (* socket_utilities/socket_utility_close_other_fds.c:25 *) "socket_utility_close_other_fds";
  (* socket_utilities/socket_utility_close_standard_fds.c:22 *) "socket_utility_close_standard_fds";
  (* socket_utilities/socket_utility_hton16.c:23 *) "socket_utility_hton16";
  (* socket_utilities/socket_utility_hton32.c:23 *) "socket_utility_hton32";
  (* socket_utilities/socket_utility_hton64.c:23 *) "socket_utility_hton64";
  (* socket_utilities/socket_utility_move_descriptors.c:26 *) "socket_utility_move_descriptors";
  (* socket_utilities/socket_utility_ntoh16.c:23 *) "socket_utility_ntoh16";
  (* socket_utilities/socket_utility_ntoh32.c:23 *) "socket_utility_ntoh32";
  (* socket_utilities/socket_utility_ntoh64.c:23 *) "socket_utility_ntoh64";
  (* socket_utilities/socket_utility_set_nonblock.c:24 *) "socket_utility_set_nonblock";
  (* socket_utilities/socket_utility_setfds.c:29 *) "socket_utility_setfds";
  (* socket_utilities/socket_utility_socketpair.c:34 *) "socket_utility_socketpair";
  (* socket_utilities/vsocket_utility_move_descriptors.c:30 *) "vsocket_utility_move_descriptors";
  (* socket_utilities/vsocket_utility_setfds.c:31 *) "vsocket_utility_setfds";
  (* stack/stack_create.c:76 *) "stack_create";
  (* stack/stack_resource_handle.c:29 *) "stack_resource_handle";
  (* string/chomp.c:22 *) "chomp";
  (* string/ends_with.c:22 *) "ends_with";
  (* string/is_whitespace.c:19 *) "is_whitespace";
  (* string/left_trim.c:28 *) "left_trim";
  (* string/multisplit.c:58 *) "multisplit";
  (* string/right_trim.c:28 *) "right_trim";
  (* string/split.c:34 *) "split";
  (* string/starts_with.c:22 *) "starts_with";
  (* string/strdup.c:31 *) "strdup";
  (* string/trim.c:29 *) "trim";
  (* string/vstrcat.c:34 *) "vstrcat";
  (* string/words.c:51 *) "words";
  (* uuid/rcpr_uuid_parse_raw_string.c:52 *) "rcpr_uuid_parse_raw_string";
  (* uuid/rcpr_uuid_parse_string.c:47 *) "rcpr_uuid_parse_string";
  (* uuid/rcpr_uuid_to_string.c:102 *) "rcpr_uuid_to_string"
].

(** The symbols that its assembly sources export (.globl), as written there. *)
Definition assembly_symbols : list string := [
  (* fiber/platform/sysv/x86_64/fiber_make.s:23 *) "rcpr_u0ec71e88_25af_40aa_8dd9_990d596b60de_V0_4_fiber_make";
  (* fiber/platform/sysv/x86_64/fiber_switch.s:23 *) "rcpr_u0ec71e88_25af_40aa_8dd9_990d596b60de_V0_4_fiber_switch"
].

(** CMakeLists.txt:3-7 *)
Definition version_major : string := "0".
Definition version_minor : string := "4".
