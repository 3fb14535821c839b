(** Status codes: include/rcpr/status.h, component.h and status/*.h. *)
From Verif Require Import Base.

(** include/rcpr/component.h [COMPONENT_MAKE]: family in the high octet,
    subcomponent in the low one. *)
Definition COMPONENT_MAKE (family subcomponent : Z) : Z :=
  Z.lor (Z.land (Z.shiftl family 8) 65280) (Z.land subcomponent 255).

(** include/rcpr/component.h [COMPONENT_FAMILY_RCPR]. *)
Definition COMPONENT_FAMILY_RCPR : Z := 0.

(** include/rcpr/status.h:46-49 [STATUS_CODE], as a signed integer (C [int]
    arithmetic, two's complement, which is what [Z]'s bit operations compute). *)
Definition STATUS_CODE (error_flag component reason : Z) : Z :=
  Z.lor (Z.lor (Z.land (if error_flag =? 1 then -1 else 0) (Z.lnot 2147483647))
               (Z.shiftl (Z.land component 65535) 15))
        (Z.shiftl (Z.land reason 32767) 0).

(** include/rcpr/status.h:40 *)
Definition STATUS_SUCCESS : Z := 0.

(** include/rcpr/component.h:150-246: the RCPR components. *)
Definition RCPR_COMPONENT_GLOBAL : Z := COMPONENT_MAKE COMPONENT_FAMILY_RCPR 0.
Definition RCPR_COMPONENT_RESOURCE : Z := COMPONENT_MAKE COMPONENT_FAMILY_RCPR 1.
Definition RCPR_COMPONENT_ALLOCATOR : Z := COMPONENT_MAKE COMPONENT_FAMILY_RCPR 2.
Definition RCPR_COMPONENT_SOCKET_UTILITIES : Z := COMPONENT_MAKE COMPONENT_FAMILY_RCPR 3.
Definition RCPR_COMPONENT_PSOCK : Z := COMPONENT_MAKE COMPONENT_FAMILY_RCPR 4.
Definition RCPR_COMPONENT_THREAD : Z := COMPONENT_MAKE COMPONENT_FAMILY_RCPR 5.
Definition RCPR_COMPONENT_STACK : Z := COMPONENT_MAKE COMPONENT_FAMILY_RCPR 6.
Definition RCPR_COMPONENT_FIBER : Z := COMPONENT_MAKE COMPONENT_FAMILY_RCPR 7.
Definition RCPR_COMPONENT_RBTREE : Z := COMPONENT_MAKE COMPONENT_FAMILY_RCPR 8.
Definition RCPR_COMPONENT_UUID : Z := COMPONENT_MAKE COMPONENT_FAMILY_RCPR 9.
Definition RCPR_COMPONENT_MESSAGE : Z := COMPONENT_MAKE COMPONENT_FAMILY_RCPR 10.
Definition RCPR_COMPONENT_STRING : Z := COMPONENT_MAKE COMPONENT_FAMILY_RCPR 11.
Definition RCPR_COMPONENT_AUTO_RESET_TRIGGER : Z := COMPONENT_MAKE COMPONENT_FAMILY_RCPR 12.
Definition RCPR_COMPONENT_CONDITION : Z := COMPONENT_MAKE COMPONENT_FAMILY_RCPR 13.

(** include/rcpr/status/auto_reset_trigger.h *)
Definition ERROR_AUTO_RESET_TRIGGER_LISTENER_ALREADY_REGISTERED : Z := STATUS_CODE 1 RCPR_COMPONENT_AUTO_RESET_TRIGGER 0. (* line 18 *)

(** include/rcpr/status/condition.h *)
Definition ERROR_CONDITION_UNKNOWN_ERROR : Z := STATUS_CODE 1 RCPR_COMPONENT_CONDITION 0. (* line 17 *)

(** include/rcpr/status/fiber.h *)
Definition ERROR_FIBER_SCHEDULER_CALLBACK_STATE : Z := STATUS_CODE 1 RCPR_COMPONENT_FIBER 0. (* line 17 *)
Definition ERROR_FIBER_SCHEDULER_DISCIPLINE_NOT_FOUND : Z := STATUS_CODE 1 RCPR_COMPONENT_FIBER 1. (* line 23 *)
Definition ERROR_FIBER_SCHEDULER_NOT_DISCIPLINED : Z := STATUS_CODE 1 RCPR_COMPONENT_FIBER 2. (* line 30 *)
Definition ERROR_FIBER_SCHEDULER_DUPLICATE_DISCIPLINE_ID : Z := STATUS_CODE 1 RCPR_COMPONENT_FIBER 3. (* line 37 *)
Definition ERROR_FIBER_SCHEDULER_DISCIPLINE_ALREADY_OWNED : Z := STATUS_CODE 1 RCPR_COMPONENT_FIBER 4. (* line 44 *)
Definition ERROR_FIBER_SCHEDULER_BAD_YIELD_EVENT : Z := STATUS_CODE 1 RCPR_COMPONENT_FIBER 5. (* line 50 *)
Definition ERROR_FIBER_SCHEDULER_EXHAUSTED : Z := STATUS_CODE 1 RCPR_COMPONENT_FIBER 6. (* line 56 *)
Definition ERROR_FIBER_UNEXPECTED_RESUME_EVENT : Z := STATUS_CODE 1 RCPR_COMPONENT_FIBER 7. (* line 62 *)
Definition ERROR_FIBER_INVALID_STATE : Z := STATUS_CODE 1 RCPR_COMPONENT_FIBER 8. (* line 68 *)
Definition ERROR_FIBER_NO_UNEXPECTED_HANDLER : Z := STATUS_CODE 1 RCPR_COMPONENT_FIBER 9. (* line 75 *)

(** include/rcpr/status/general.h *)
Definition ERROR_GENERAL_OUT_OF_MEMORY : Z := STATUS_CODE 1 RCPR_COMPONENT_GLOBAL 0. (* line 17 *)
Definition ERROR_GENERAL_BAD_VTABLE : Z := STATUS_CODE 1 RCPR_COMPONENT_GLOBAL 1. (* line 23 *)
Definition ERROR_GENERAL_CONTROL_KEY_INVALID : Z := STATUS_CODE 1 RCPR_COMPONENT_GLOBAL 2. (* line 29 *)
Definition ERROR_GENERAL_REALLOCATION_NOT_SUPPORTED : Z := STATUS_CODE 1 RCPR_COMPONENT_GLOBAL 3. (* line 35 *)
Definition ERROR_GENERAL_INVALID_ARGUMENTS : Z := STATUS_CODE 1 RCPR_COMPONENT_GLOBAL 4. (* line 41 *)

(** include/rcpr/status/message.h *)
Definition ERROR_MESSAGE_ALREADY_BLOCKED : Z := STATUS_CODE 1 RCPR_COMPONENT_MESSAGE 0. (* line 17 *)
Definition ERROR_MESSAGE_UNKNOWN_ERROR : Z := STATUS_CODE 1 RCPR_COMPONENT_MESSAGE 1. (* line 23 *)

(** include/rcpr/status/psock.h *)
Definition ERROR_PSOCK_READ_GENERAL : Z := STATUS_CODE 1 RCPR_COMPONENT_PSOCK 0. (* line 17 *)
Definition ERROR_PSOCK_WRITE_GENERAL : Z := STATUS_CODE 1 RCPR_COMPONENT_PSOCK 1. (* line 23 *)
Definition ERROR_PSOCK_READ_WOULD_BLOCK : Z := STATUS_CODE 1 RCPR_COMPONENT_PSOCK 2. (* line 30 *)
Definition ERROR_PSOCK_WRITE_WOULD_BLOCK : Z := STATUS_CODE 1 RCPR_COMPONENT_PSOCK 3. (* line 37 *)
Definition ERROR_PSOCK_READ_INVALID_SIZE : Z := STATUS_CODE 1 RCPR_COMPONENT_PSOCK 4. (* line 43 *)
Definition ERROR_PSOCK_WRITE_INVALID_SIZE : Z := STATUS_CODE 1 RCPR_COMPONENT_PSOCK 5. (* line 49 *)
Definition ERROR_PSOCK_READ_BOXED_INVALID_TYPE : Z := STATUS_CODE 1 RCPR_COMPONENT_PSOCK 6. (* line 55 *)
Definition ERROR_PSOCK_READ_BOXED_INVALID_SIZE : Z := STATUS_CODE 1 RCPR_COMPONENT_PSOCK 7. (* line 61 *)
Definition ERROR_PSOCK_KEVENT_FAILED : Z := STATUS_CODE 1 RCPR_COMPONENT_PSOCK 8. (* line 67 *)
Definition ERROR_PSOCK_KQUEUE_FAILED : Z := STATUS_CODE 1 RCPR_COMPONENT_PSOCK 9. (* line 73 *)
Definition ERROR_PSOCK_UNSUPPORTED_TYPE : Z := STATUS_CODE 1 RCPR_COMPONENT_PSOCK 10. (* line 79 *)
Definition ERROR_PSOCK_ACCEPT_WOULD_BLOCK : Z := STATUS_CODE 1 RCPR_COMPONENT_PSOCK 11. (* line 86 *)
Definition ERROR_PSOCK_ACCEPT_GENERAL : Z := STATUS_CODE 1 RCPR_COMPONENT_PSOCK 12. (* line 92 *)
Definition ERROR_PSOCK_CREATE_FROM_ADDRESS_SOCKET_CREATE : Z := STATUS_CODE 1 RCPR_COMPONENT_PSOCK 13. (* line 98 *)
Definition ERROR_PSOCK_CREATE_FROM_ADDRESS_BIND : Z := STATUS_CODE 1 RCPR_COMPONENT_PSOCK 14. (* line 104 *)
Definition ERROR_PSOCK_CREATE_FROM_ADDRESS_LISTEN : Z := STATUS_CODE 1 RCPR_COMPONENT_PSOCK 15. (* line 110 *)
Definition ERROR_PSOCK_CREATE_FROM_ADDRESS_CLOSE : Z := STATUS_CODE 1 RCPR_COMPONENT_PSOCK 16. (* line 116 *)
Definition ERROR_PSOCK_READ_EOF : Z := STATUS_CODE 1 RCPR_COMPONENT_PSOCK 17. (* line 122 *)
Definition ERROR_PSOCK_WRITE_EOF : Z := STATUS_CODE 1 RCPR_COMPONENT_PSOCK 18. (* line 128 *)
Definition ERROR_PSOCK_EPOLL_CREATE_FAILED : Z := STATUS_CODE 1 RCPR_COMPONENT_PSOCK 19. (* line 134 *)
Definition ERROR_PSOCK_EPOLL_CTL_FAILED : Z := STATUS_CODE 1 RCPR_COMPONENT_PSOCK 20. (* line 140 *)
Definition ERROR_PSOCK_EPOLL_WAIT_FAILED : Z := STATUS_CODE 1 RCPR_COMPONENT_PSOCK 21. (* line 146 *)
Definition ERROR_PSOCK_POLL_FAILED : Z := STATUS_CODE 1 RCPR_COMPONENT_PSOCK 22. (* line 152 *)
Definition ERROR_PSOCK_SENDMSG_FAILED : Z := STATUS_CODE 1 RCPR_COMPONENT_PSOCK 23. (* line 158 *)
Definition ERROR_PSOCK_RECVMSG_FAILED : Z := STATUS_CODE 1 RCPR_COMPONENT_PSOCK 24. (* line 164 *)
Definition ERROR_PSOCK_USER_METHOD_UNDEFINED : Z := STATUS_CODE 1 RCPR_COMPONENT_PSOCK 25. (* line 170 *)
Definition ERROR_PSOCK_HOSTNAME_LOOKUP_FAILURE : Z := STATUS_CODE 1 RCPR_COMPONENT_PSOCK 26. (* line 176 *)
Definition ERROR_PSOCK_SOCKET_CREATE : Z := STATUS_CODE 1 RCPR_COMPONENT_PSOCK 27. (* line 182 *)
Definition ERROR_PSOCK_CONNECTION_REFUSED : Z := STATUS_CODE 1 RCPR_COMPONENT_PSOCK 28. (* line 188 *)
Definition ERROR_PSOCK_OPERATION_NOT_SUPPORTED : Z := STATUS_CODE 1 RCPR_COMPONENT_PSOCK 29. (* line 194 *)
Definition ERROR_PSOCK_BR_READ_LINE_BAD_LOOP_INVARIANT : Z := STATUS_CODE 1 RCPR_COMPONENT_PSOCK 30. (* line 200 *)
Definition ERROR_PSOCK_BR_READ_LINE_BUFFER_SIZE_TOO_SMALL : Z := STATUS_CODE 1 RCPR_COMPONENT_PSOCK 31. (* line 206 *)
Definition ERROR_PSOCK_BR_READ_LINE_TRUNCATED : Z := STATUS_CODE 1 RCPR_COMPONENT_PSOCK 32. (* line 212 *)
Definition ERROR_PSOCK_DOUBLE_BLOCK_UNSUPPORTED : Z := STATUS_CODE 1 RCPR_COMPONENT_PSOCK 33. (* line 219 *)
Definition ERROR_PSOCK_METHOD_UNDEFINED : Z := STATUS_CODE 1 RCPR_COMPONENT_PSOCK 34. (* line 225 *)
Definition ERROR_PSOCK_SETSOCKOPT : Z := STATUS_CODE 1 RCPR_COMPONENT_PSOCK 35. (* line 231 *)

(** include/rcpr/status/rbtree.h *)
Definition ERROR_RBTREE_NIL_NODE_CANNOT_BE_RELEASED : Z := STATUS_CODE 1 RCPR_COMPONENT_RBTREE 0. (* line 17 *)
Definition ERROR_RBTREE_NOT_FOUND : Z := STATUS_CODE 1 RCPR_COMPONENT_RBTREE 1. (* line 23 *)

(** include/rcpr/status/socket_utilities.h *)
Definition ERROR_SOCKET_UTILITIES_SOCKETPAIR_FAILURE : Z := STATUS_CODE 1 RCPR_COMPONENT_SOCKET_UTILITIES 0. (* line 17 *)
Definition ERROR_SOCKET_UTILITIES_SET_NONBLOCK_FAILURE : Z := STATUS_CODE 1 RCPR_COMPONENT_SOCKET_UTILITIES 1. (* line 23 *)
Definition ERROR_SOCKET_UTILITIES_DUP2_FAILURE : Z := STATUS_CODE 1 RCPR_COMPONENT_SOCKET_UTILITIES 2. (* line 29 *)

(** include/rcpr/status/stack.h *)
Definition ERROR_STACK_UNMAP : Z := STATUS_CODE 1 RCPR_COMPONENT_STACK 0. (* line 17 *)

(** include/rcpr/status/string.h *)
Definition ERROR_STRING_INVALID_PARAMETER : Z := STATUS_CODE 1 RCPR_COMPONENT_STRING 0. (* line 17 *)
Definition ERROR_STRING_END_OF_INPUT : Z := STATUS_CODE 1 RCPR_COMPONENT_STRING 1. (* line 24 *)

(** include/rcpr/status/thread.h *)
Definition ERROR_THREAD_ATTRIBUTE_INIT : Z := STATUS_CODE 1 RCPR_COMPONENT_THREAD 0. (* line 17 *)
Definition ERROR_THREAD_ATTRIBUTE_SETSTACKSIZE : Z := STATUS_CODE 1 RCPR_COMPONENT_THREAD 1. (* line 23 *)
Definition ERROR_THREAD_CREATE : Z := STATUS_CODE 1 RCPR_COMPONENT_THREAD 2. (* line 29 *)
Definition ERROR_THREAD_JOIN : Z := STATUS_CODE 1 RCPR_COMPONENT_THREAD 3. (* line 35 *)
Definition ERROR_THREAD_MUTEX_INIT : Z := STATUS_CODE 1 RCPR_COMPONENT_THREAD 4. (* line 41 *)
Definition ERROR_THREAD_MUTEX_DESTROY : Z := STATUS_CODE 1 RCPR_COMPONENT_THREAD 5. (* line 47 *)
Definition ERROR_THREAD_MUTEX_UNLOCK : Z := STATUS_CODE 1 RCPR_COMPONENT_THREAD 6. (* line 53 *)
Definition ERROR_THREAD_MUTEX_LOCK : Z := STATUS_CODE 1 RCPR_COMPONENT_THREAD 7. (* line 59 *)
Definition ERROR_THREAD_COND_INIT : Z := STATUS_CODE 1 RCPR_COMPONENT_THREAD 8. (* line 65 *)
Definition ERROR_THREAD_COND_DESTROY : Z := STATUS_CODE 1 RCPR_COMPONENT_THREAD 9. (* line 71 *)
Definition ERROR_THREAD_COND_WAIT : Z := STATUS_CODE 1 RCPR_COMPONENT_THREAD 10. (* line 77 *)

(** include/rcpr/status/uuid.h *)
Definition ERROR_UUID_PARSING_FAILED : Z := STATUS_CODE 1 RCPR_COMPONENT_UUID 0. (* line 17 *)

(** Every named status code (all of include/rcpr/status/*.h). *)
Definition all_errors : list Z :=
  [ ERROR_AUTO_RESET_TRIGGER_LISTENER_ALREADY_REGISTERED;
    ERROR_CONDITION_UNKNOWN_ERROR;
    ERROR_FIBER_SCHEDULER_CALLBACK_STATE;
    ERROR_FIBER_SCHEDULER_DISCIPLINE_NOT_FOUND;
    ERROR_FIBER_SCHEDULER_NOT_DISCIPLINED;
    ERROR_FIBER_SCHEDULER_DUPLICATE_DISCIPLINE_ID;
    ERROR_FIBER_SCHEDULER_DISCIPLINE_ALREADY_OWNED;
    ERROR_FIBER_SCHEDULER_BAD_YIELD_EVENT;
    ERROR_FIBER_SCHEDULER_EXHAUSTED;
    ERROR_FIBER_UNEXPECTED_RESUME_EVENT;
    ERROR_FIBER_INVALID_STATE;
    ERROR_FIBER_NO_UNEXPECTED_HANDLER;
    ERROR_GENERAL_OUT_OF_MEMORY;
    ERROR_GENERAL_BAD_VTABLE;
    ERROR_GENERAL_CONTROL_KEY_INVALID;
    ERROR_GENERAL_REALLOCATION_NOT_SUPPORTED;
    ERROR_GENERAL_INVALID_ARGUMENTS;
    ERROR_MESSAGE_ALREADY_BLOCKED;
    ERROR_MESSAGE_UNKNOWN_ERROR;
    ERROR_PSOCK_READ_GENERAL;
    ERROR_PSOCK_WRITE_GENERAL;
    ERROR_PSOCK_READ_WOULD_BLOCK;
    ERROR_PSOCK_WRITE_WOULD_BLOCK;
    ERROR_PSOCK_READ_INVALID_SIZE;
    ERROR_PSOCK_WRITE_INVALID_SIZE;
    ERROR_PSOCK_READ_BOXED_INVALID_TYPE;
    ERROR_PSOCK_READ_BOXED_INVALID_SIZE;
    ERROR_PSOCK_KEVENT_FAILED;
    ERROR_PSOCK_KQUEUE_FAILED;
    ERROR_PSOCK_UNSUPPORTED_TYPE;
    ERROR_PSOCK_ACCEPT_WOULD_BLOCK;
    ERROR_PSOCK_ACCEPT_GENERAL;
    ERROR_PSOCK_CREATE_FROM_ADDRESS_SOCKET_CREATE;
    ERROR_PSOCK_CREATE_FROM_ADDRESS_BIND;
    ERROR_PSOCK_CREATE_FROM_ADDRESS_LISTEN;
    ERROR_PSOCK_CREATE_FROM_ADDRESS_CLOSE;
    ERROR_PSOCK_READ_EOF;
    ERROR_PSOCK_WRITE_EOF;
    ERROR_PSOCK_EPOLL_CREATE_FAILED;
    ERROR_PSOCK_EPOLL_CTL_FAILED;
    ERROR_PSOCK_EPOLL_WAIT_FAILED;
    ERROR_PSOCK_POLL_FAILED;
    ERROR_PSOCK_SENDMSG_FAILED;
    ERROR_PSOCK_RECVMSG_FAILED;
    ERROR_PSOCK_USER_METHOD_UNDEFINED;
    ERROR_PSOCK_HOSTNAME_LOOKUP_FAILURE;
    ERROR_PSOCK_SOCKET_CREATE;
    ERROR_PSOCK_CONNECTION_REFUSED;
    ERROR_PSOCK_OPERATION_NOT_SUPPORTED;
    ERROR_PSOCK_BR_READ_LINE_BAD_LOOP_INVARIANT;
    ERROR_PSOCK_BR_READ_LINE_BUFFER_SIZE_TOO_SMALL;
    ERROR_PSOCK_BR_READ_LINE_TRUNCATED;
    ERROR_PSOCK_DOUBLE_BLOCK_UNSUPPORTED;
    ERROR_PSOCK_METHOD_UNDEFINED;
    ERROR_PSOCK_SETSOCKOPT;
    ERROR_RBTREE_NIL_NODE_CANNOT_BE_RELEASED;
    ERROR_RBTREE_NOT_FOUND;
    ERROR_SOCKET_UTILITIES_SOCKETPAIR_FAILURE;
    ERROR_SOCKET_UTILITIES_SET_NONBLOCK_FAILURE;
    ERROR_SOCKET_UTILITIES_DUP2_FAILURE;
    ERROR_STACK_UNMAP;
    ERROR_STRING_INVALID_PARAMETER;
    ERROR_STRING_END_OF_INPUT;
    ERROR_THREAD_ATTRIBUTE_INIT;
    ERROR_THREAD_ATTRIBUTE_SETSTACKSIZE;
    ERROR_THREAD_CREATE;
    ERROR_THREAD_JOIN;
    ERROR_THREAD_MUTEX_INIT;
    ERROR_THREAD_MUTEX_DESTROY;
    ERROR_THREAD_MUTEX_UNLOCK;
    ERROR_THREAD_MUTEX_LOCK;
    ERROR_THREAD_COND_INIT;
    ERROR_THREAD_COND_DESTROY;
    ERROR_THREAD_COND_WAIT;
    ERROR_UUID_PARSING_FAILED ].
