(** C46: status codes.  Statements only; proofs are in StatusProofs.v. *)
From Verif Require Import Base Status StatusProofs.

(** Two different (component, reason) pairs never share a code, and no error code
    is success. *)
Theorem C46_status_code_injective : forall c1 r1 c2 r2,
  0 <= c1 < 65536 -> 0 <= r1 < 32768 -> 0 <= c2 < 65536 -> 0 <= r2 < 32768 ->
  STATUS_CODE 1 c1 r1 = STATUS_CODE 1 c2 r2 -> c1 = c2 /\ r1 = r2.
Proof. exact status_code_injective. Qed.
Theorem C46_error_is_not_success : forall c r,
  0 <= c < 65536 -> 0 <= r < 32768 ->
  - 2^31 <= STATUS_CODE 1 c r < 0 /\ STATUS_CODE 1 c r <> STATUS_SUCCESS.
Proof. exact status_code_error_range'. Qed.
(** The closed form of a code, whatever the component and the reason. *)
Theorem C46_status_code_value : forall c r, 0 <= c < 65536 -> 0 <= r < 32768 ->
  STATUS_CODE 1 c r = - 2^31 + c * 2^15 + r.
Proof. exact status_code_value. Qed.
(** A component number keeps its family and its subcomponent apart. *)
Theorem C46_component_injective : forall f1 s1 f2 s2,
  0 <= f1 < 256 -> 0 <= s1 < 256 -> 0 <= f2 < 256 -> 0 <= s2 < 256 ->
  COMPONENT_MAKE f1 s1 = COMPONENT_MAKE f2 s2 -> f1 = f2 /\ s1 = s2.
Proof. exact component_make_injective. Qed.
Theorem C46_component_range : forall f s, 0 <= COMPONENT_MAKE f s < 65536.
Proof. exact component_make_range. Qed.
(** The codes the library defines are pairwise distinct and all negative. *)
Theorem C46_library_codes_distinct : NoDup all_errors.
Proof. exact nodup_all_errors. Qed.
Theorem C46_library_codes_negative : Forall (fun e => - 2^31 <= e < 0) all_errors.
Proof. exact all_errors_negative. Qed.
(** The values the headers define, one by one (computed from the header text,
    independently of the model). *)
Theorem C46_library_code_values :
  ERROR_AUTO_RESET_TRIGGER_LISTENER_ALREADY_REGISTERED = -2147090432 /\
  ERROR_CONDITION_UNKNOWN_ERROR = -2147057664 /\
  ERROR_FIBER_SCHEDULER_CALLBACK_STATE = -2147254272 /\
  ERROR_FIBER_SCHEDULER_DISCIPLINE_NOT_FOUND = -2147254271 /\
  ERROR_FIBER_SCHEDULER_NOT_DISCIPLINED = -2147254270 /\
  ERROR_FIBER_SCHEDULER_DUPLICATE_DISCIPLINE_ID = -2147254269 /\
  ERROR_FIBER_SCHEDULER_DISCIPLINE_ALREADY_OWNED = -2147254268 /\
  ERROR_FIBER_SCHEDULER_BAD_YIELD_EVENT = -2147254267 /\
  ERROR_FIBER_SCHEDULER_EXHAUSTED = -2147254266 /\
  ERROR_FIBER_UNEXPECTED_RESUME_EVENT = -2147254265 /\
  ERROR_FIBER_INVALID_STATE = -2147254264 /\
  ERROR_FIBER_NO_UNEXPECTED_HANDLER = -2147254263 /\
  ERROR_GENERAL_OUT_OF_MEMORY = -2147483648 /\
  ERROR_GENERAL_BAD_VTABLE = -2147483647 /\
  ERROR_GENERAL_CONTROL_KEY_INVALID = -2147483646 /\
  ERROR_GENERAL_REALLOCATION_NOT_SUPPORTED = -2147483645 /\
  ERROR_GENERAL_INVALID_ARGUMENTS = -2147483644 /\
  ERROR_MESSAGE_ALREADY_BLOCKED = -2147155968 /\
  ERROR_MESSAGE_UNKNOWN_ERROR = -2147155967 /\
  ERROR_PSOCK_READ_GENERAL = -2147352576 /\
  ERROR_PSOCK_WRITE_GENERAL = -2147352575 /\
  ERROR_PSOCK_READ_WOULD_BLOCK = -2147352574 /\
  ERROR_PSOCK_WRITE_WOULD_BLOCK = -2147352573 /\
  ERROR_PSOCK_READ_INVALID_SIZE = -2147352572 /\
  ERROR_PSOCK_WRITE_INVALID_SIZE = -2147352571 /\
  ERROR_PSOCK_READ_BOXED_INVALID_TYPE = -2147352570 /\
  ERROR_PSOCK_READ_BOXED_INVALID_SIZE = -2147352569 /\
  ERROR_PSOCK_KEVENT_FAILED = -2147352568 /\
  ERROR_PSOCK_KQUEUE_FAILED = -2147352567 /\
  ERROR_PSOCK_UNSUPPORTED_TYPE = -2147352566 /\
  ERROR_PSOCK_ACCEPT_WOULD_BLOCK = -2147352565 /\
  ERROR_PSOCK_ACCEPT_GENERAL = -2147352564 /\
  ERROR_PSOCK_CREATE_FROM_ADDRESS_SOCKET_CREATE = -2147352563 /\
  ERROR_PSOCK_CREATE_FROM_ADDRESS_BIND = -2147352562 /\
  ERROR_PSOCK_CREATE_FROM_ADDRESS_LISTEN = -2147352561 /\
  ERROR_PSOCK_CREATE_FROM_ADDRESS_CLOSE = -2147352560 /\
  ERROR_PSOCK_READ_EOF = -2147352559 /\
  ERROR_PSOCK_WRITE_EOF = -2147352558 /\
  ERROR_PSOCK_EPOLL_CREATE_FAILED = -2147352557 /\
  ERROR_PSOCK_EPOLL_CTL_FAILED = -2147352556 /\
  ERROR_PSOCK_EPOLL_WAIT_FAILED = -2147352555 /\
  ERROR_PSOCK_POLL_FAILED = -2147352554 /\
  ERROR_PSOCK_SENDMSG_FAILED = -2147352553 /\
  ERROR_PSOCK_RECVMSG_FAILED = -2147352552 /\
  ERROR_PSOCK_USER_METHOD_UNDEFINED = -2147352551 /\
  ERROR_PSOCK_HOSTNAME_LOOKUP_FAILURE = -2147352550 /\
  ERROR_PSOCK_SOCKET_CREATE = -2147352549 /\
  ERROR_PSOCK_CONNECTION_REFUSED = -2147352548 /\
  ERROR_PSOCK_OPERATION_NOT_SUPPORTED = -2147352547 /\
  ERROR_PSOCK_BR_READ_LINE_BAD_LOOP_INVARIANT = -2147352546 /\
  ERROR_PSOCK_BR_READ_LINE_BUFFER_SIZE_TOO_SMALL = -2147352545 /\
  ERROR_PSOCK_BR_READ_LINE_TRUNCATED = -2147352544 /\
  ERROR_PSOCK_DOUBLE_BLOCK_UNSUPPORTED = -2147352543 /\
  ERROR_PSOCK_METHOD_UNDEFINED = -2147352542 /\
  ERROR_PSOCK_SETSOCKOPT = -2147352541 /\
  ERROR_RBTREE_NIL_NODE_CANNOT_BE_RELEASED = -2147221504 /\
  ERROR_RBTREE_NOT_FOUND = -2147221503 /\
  ERROR_SOCKET_UTILITIES_SOCKETPAIR_FAILURE = -2147385344 /\
  ERROR_SOCKET_UTILITIES_SET_NONBLOCK_FAILURE = -2147385343 /\
  ERROR_SOCKET_UTILITIES_DUP2_FAILURE = -2147385342 /\
  ERROR_STACK_UNMAP = -2147287040 /\
  ERROR_STRING_INVALID_PARAMETER = -2147123200 /\
  ERROR_STRING_END_OF_INPUT = -2147123199 /\
  ERROR_THREAD_ATTRIBUTE_INIT = -2147319808 /\
  ERROR_THREAD_ATTRIBUTE_SETSTACKSIZE = -2147319807 /\
  ERROR_THREAD_CREATE = -2147319806 /\
  ERROR_THREAD_JOIN = -2147319805 /\
  ERROR_THREAD_MUTEX_INIT = -2147319804 /\
  ERROR_THREAD_MUTEX_DESTROY = -2147319803 /\
  ERROR_THREAD_MUTEX_UNLOCK = -2147319802 /\
  ERROR_THREAD_MUTEX_LOCK = -2147319801 /\
  ERROR_THREAD_COND_INIT = -2147319800 /\
  ERROR_THREAD_COND_DESTROY = -2147319799 /\
  ERROR_THREAD_COND_WAIT = -2147319798 /\
  ERROR_UUID_PARSING_FAILED = -2147188736.
Proof. repeat split. Qed.

Print Assumptions C46_status_code_injective.
Print Assumptions C46_error_is_not_success.
Print Assumptions C46_status_code_value.
Print Assumptions C46_component_injective.
Print Assumptions C46_component_range.
Print Assumptions C46_library_codes_distinct.
Print Assumptions C46_library_codes_negative.
Print Assumptions C46_library_code_values.
