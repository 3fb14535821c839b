{
 "C01": [
  "partial",
  "Proved for every string and every delimiter value compared as plain signed char. The claim for delimiter bytes 128..255 passed as a positive int is false of the code (refuted: never found)."
 ],
 "C02": [
  "proved",
  ""
 ],
 "C03": [
  "proved",
  ""
 ],
 "C04": [
  "proved",
  ""
 ],
 "C05": [
  "proved",
  "Allocation failure is the status returned by the allocator, any value."
 ],
 "C06": [
  "proved",
  ""
 ],
 "C07": [
  "proved",
  ""
 ],
 "C08": [
  "partial",
  "Raw and boxed round trips proved over every transport and through in-memory sockets, except a sequence ending in an empty string or byte array at the very end of the data: refuted, the read reports end of file."
 ],
 "C09": [
  "proved",
  ""
 ],
 "C10": [
  "partial",
  "Proved for lengths below 2^32; refuted for every length of 2^32 or more."
 ],
 "C11": [
  "proved",
  ""
 ],
 "C12": [
  "proved",
  ""
 ],
 "C13": [
  "partial",
  "Refuted in two ways; true immediately after the failed write unless the allocation of the next buffer failed."
 ],
 "C14": [
  "proved",
  ""
 ],
 "C21": [
  "partial",
  "Proved for requests n with n + region size + 16 <= 2^64; refuted for a request near 2^64: it succeeds and the next block is the allocator's own header."
 ],
 "C22": [
  "proved",
  "A request that would exactly fill the region is refused; requests as in C21."
 ],
 "C32": [
  "proved",
  ""
 ],
 "C33": [
  "partial",
  "Proved for every history and every callback behaviour (registering and signalling from inside callbacks included) except callbacks that step the trigger themselves: refuted."
 ],
 "C34": [
  "partial",
  "Proved when no source is the target of its own or an earlier request, with interrupted calls; refuted for every self move and every exchange."
 ],
 "C46": [
  "proved",
  ""
 ],
 "C48": [
  "partial",
  "Proved constructor by constructor and failure point by failure point, with the release of any object (C48_release: exactly what it owns, once). False for the disciplines that are made on demand: C48_create_discipline_refuted, C48_io_discipline_refuted; also see C20, C38 and C41."
 ],
 "C49": [
  "partial",
  "Refuted for reallocation to size 0 where the C library frees the block and returns NULL."
 ],
 "C50": [
  "partial",
  "close_other_fds leaves descriptors of 1024 and more open (refuted); the rest proved."
 ],
 "C15": [
  "proved",
  "On WRITE_EOF and on a failed wait the reported size is the requested one although only part was handed over; the theorem states this."
 ],
 "C16": [
  "partial",
  "Refuted for psock_read_raw on asynchronous sockets (bytes before the close are dropped) and for fixed-size reads through a buffered reader (the tail stays buffered); proved for plain descriptor sockets and for buffered readers asked for no more than what is left."
 ],
 "C17": [
  "proved",
  "For every wrapped socket whose successful reads deliver its stream in order; descriptor, asynchronous and in-memory sockets are shown to be such."
 ],
 "C18": [
  "partial",
  "Contract of every call proved over any stream; equality with the line specification proved for sockets that fail only at their end, except lines that fit to the byte; refuted for lines interrupted by a would-block."
 ],
 "C19": [
  "partial",
  "Proved for sockets that fail only at their end and no line fitting a buffer to the byte; refuted otherwise."
 ],
 "C20": [
  "partial",
  "Refuted whenever only the buffer's allocation fails; proved otherwise."
 ],
 "C51": [
  "proved",
  ""
 ],
 "C52": [
  "proved",
  "The connections between vtable slots and wrappers are modelled by the status of the slot lookup."
 ],
 "C23": [
  "proved",
  "Calls allowed: existing lists and nodes; a node is used only with the list it was created in (see C27); a clear whose very last element fails is excluded (see C26). Counts are unbounded. A pop whose node cannot be given back returns the status of releasing the element, which may be success with no element: part of the specification stated."
 ],
 "C24": [
  "proved",
  "As C23; a failing clear is excluded (see C26)."
 ],
 "C25": [
  "proved",
  "For non-NULL elements (a NULL one is dereferenced if its node cannot be given back)."
 ],
 "C26": [
  "partial",
  "Proved when every release and reclaim succeeds, and in every case that nothing is released twice or lost. The claim under failures is refuted: clear stops at the first failing element, leaks its node, and may leave a list that loses later elements (slist and list) or is unsafe to insert into (list)."
 ],
 "C27": [
  "partial",
  "Proved for every later operation on the lists and for nodes used with the list they were created in; refuted for the other nodes, whose parent pointer still designates the old list."
 ],
 "C28": [
  "proved",
  "Any creation/insertion history on any number of trees in one memory, any allocation failures; count is unbounded in the model."
 ],
 "C29": [
  "proved",
  "Depth measured by a walk over left/right accessors is at most 2*log2(n+1)."
 ],
 "C30": [
  "partial",
  "False of the code: C30_delete_refuted and C30_delete_only_refuted give histories in which a delete empties the tree, and C30_lost_refuted proves that it does so after every history whenever the rebalancing loop starts at an only child of the root. Proved for every history in which each node the loop stands at, below the root, has a sibling or a red parent (decidable predicate steady; C30_loop_example shows the loop running), and for the first deletion after any insertion history. Missing: deletions whose loop stands at a node with no sibling and a black parent, where the code is wrong (guard and sibling colour test)."
 ],
 "C31": [
  "partial",
  "False of the code: C31_independent_refuted, C31_minimum_refuted. Proved: swapping exchanges the contents, and swapped trees may be used (not released) in any quiet history."
 ],
 "C35": [
  "partial",
  "Refinement of the whole scheduler (any tree of fibers meeting its specification; also the real red-black tree for histories whose removals are deletions that C30 covers) to a queue of ready fibers: for every history the specification covers, results, resumed fibers and resume values agree, nothing is lost or duplicated and entries made ready behind the others run in FIFO order. Not FIFO in general (set_next and the adder jump the queue: refuted), and a fiber made ready twice or a failed add breaks exactly-once (refuted)."
 ],
 "C36": [
  "partial",
  "Proved for every reachable registry and event 0..n-1 (right callback and context) and every event outside 0..n (refused). Refuted for event n: read past the code table."
 ],
 "C37": [
  "partial",
  "Proved for targets that are not ready; refuted for ready targets (event lost, request delivered twice, or a stopped fiber resumed)."
 ],
 "C53": [
  "partial",
  "Proved whenever the management fiber waits; refuted for events that occur while it does not."
 ],
 "C54": [
  "partial",
  "Proved that callbacks and disciplines never change and that nothing changes unless the tree insertion succeeded; refuted otherwise: the discipline is found, cannot be added again, and yielding through it is undefined."
 ],
 "C39": [
  "partial",
  "False in general: C39_lost_refuted (a failing allocation when the receiver is resumed loses the message) and C39_failed_send_refuted (a send reported as failed is delivered). Proved: C39_mail_partial, every history of the message API mixed with any other calls and disciplines follows the mail specification of MsgSpec.v as long as no yield itself fails for lack of memory; with the trees of src/rbtree as long as each close is a deletion that C30 covers (C39_real_tree_partial)."
 ],
 "C40": [
  "partial",
  "Uniqueness is proved for every history. Reachability is false with the trees of src/rbtree (C40_reachable_refuted: closing mailboxes loses others); proved for any tree as long as each close is a deletion that the tree does well."
 ],
 "C41": [
  "partial",
  "False when the tree node cannot be allocated and the clean-up succeeds (C41_mailbox_refuted, C41_condition_refuted: success with no address). Proved for every other allocation failure, for failing clean-ups and for success."
 ],
 "C42": [
  "partial",
  "False: closing does not wake the blocked fibers (C42_mailbox_refuted, C42_condition_refuted, for every state with a blocked fiber). Proved: what the close does do."
 ],
 "C55": [
  "proved",
  "Where reclaims succeed."
 ],
 "C43": [
  "partial",
  "False in general: C43_lost_refuted (an allocation failure in a notification loses the waiting fiber, yet the notification succeeds). Proved: C43_conditions_partial, every history of the condition API mixed with any other calls and disciplines follows CondSpec.v as long as no yield or notification itself runs out of memory; with the trees of src/rbtree as long as each close is a deletion that C30 covers (C43_real_tree_partial)."
 ],
 "C44": [
  "proved",
  "For every layout of disjoint stacks and fiber structs and every history of fiber_make and fiber_switch. Assumes that no fiber writes to the stack or the kept stack pointer of another. C44_finish_refuted records that the code meant to exit the process when an entry function returns faults instead."
 ],
 "C45": [
  "partial",
  "Proved for every history of calls, any other disciplines, allocation failures and answers of the kernel, with poll and with epoll: what each round makes ready is exactly the fibers IoSpec.v says are due (C45_poll_partial, C45_epoll_partial), a waiting fiber whose descriptor is ready is roused (C45_roused) and keeps its wait otherwise (C45_kept). The full claim is false of the code: with epoll another fiber returning from its wait on the same socket cancels the wait (C45_cancel_refuted), a descriptor that only fails does not resume the fiber (C45_failure_refuted), and with poll a signal ends the idle fiber (C45_signal_refuted). kqueue is C60."
 ],
 "C47": [
  "proved",
  "For every history of calls and steps of any number of threads (ThreadModel.v interleaves them freely) and every result of pthreads and the allocator. That joins and locks wait as POSIX says is part of the model. C47_memory shows beyond the claim that the library uses the struct of a thread only while it is allocated, if no join fails; C47_join_failure shows that a failing join frees it under the running thread."
 ],
 "C56": [
  "proved",
  "For every history and interleaving, with spurious wake-ups. POSIX's semantics of the condition variables is part of the model; what is proved is that the library passes locks and results through it as claimed. C56_errno: a failing signal returns the errno of pthreads, not a status of the library."
 ],
 "C38": [
  "partial",
  "False: C38_create_refuted (success without a scheduler for six failure points), C38_create_crash_refuted (undefined behaviour for three), C38_create_leak_refuted (one block leaked for four), C38_release_refuted (made and released, a block is left). Proved for all heaps and environments: success and the first three failure points (C38_create_partial); the release gives back everything but that block, once (C38_release_partial)."
 ],
 "C57": [
  "partial",
  "Proved for all histories in which a message brings at most one descriptor. Refuted: psock_read_raw_descriptor's control buffer has room for two descriptors, and the second stays open without the caller being told (C57_receive_refuted). Also: psock_create_from_hostname_and_port takes a port of up to 32 bits and uses the low 16 (C57_port_refuted); psock_socket_type of a buffered socket is 0, no documented value (C57_type_refuted)."
 ],
 "C58": [
  "partial",
  "Proved for every tower of sockets, apart from setsockopt: a user's setsockopt function is never called and a wrapped or buffered socket refuses it although its descriptor has it (C58_user_refuted, C58_wrapped_refuted); a user table without read or write function is accepted and using it is undefined (C58_user_refuted)."
 ],
 "C59": [
  "partial",
  "Proved: decoding of every event of the discipline that was called (C59_decodes_partial), every history without requests to fibers (C59_history_partial, with any trees, allocation failures and number of fibers), the handler of a fiber that waits for its own socket (C59_handler, C59_event, C59_wait_partial, C59_same_loop). Refuted: calls of messages and conditions ignore which discipline resumed them (C59_discipline_refuted); after a quiesce request a later wait is ended by what an abandoned wait was for (C59_lost_message_refuted, C59_other_mailbox_refuted, C59_other_condition_refuted) and the mailbox refuses the fiber that is still registered there (C59_again_refuted); the handler asked is that of the fiber for which the socket was wrapped, not the one that waits (C59_wait_refuted)."
 ],
 "C60": [
  "partial",
  "Proved for every history of calls, any other disciplines, allocation failures, refusals and answers of the kernel: each round resumes exactly the first 1024 fibers KqSpec.v says are due, or those whose events were refused (C60_history_partial), enough rounds resume all (C60_drains), other waits go on (C60_kept), the array never overflows (C60_room). The full claim is false of the code: a signal ends the idle fiber (C60_signal_refuted), events are lost when memory runs out (C60_lost_refuted) or when the kernel refuses an event as the array is full (C60_flush_refuted), and a wait that something else ended resumes its fiber later (C60_stale_refuted)."
 ],
 "C61": [
  "partial",
  "Proved for every build, section, memory and request: a table in place serves the request (C61_served, C61_missing, C61_read), in a build that checks a pointer to before the section or after its end is refused (C61_refused_partial) and whatever is called has the wanted type and was read behind an address from the start of the section to its end (C61_confined_partial). The full claim is false of the code: the end itself is accepted (C61_end_refuted), so is any place in the section whatever is there (C61_kind_refuted), the check disappears in builds without assertions unless RCPR_VTABLE_CHECK_ASSERT is turned off (C61_assertion_refuted), and a user's table of methods is never checked (C61_user_refuted)."
 ],
 "C62": [
  "partial",
  "Proved for every script of transfers and waits: after each round what was received has been sent back (C62_rounds_echo); the fiber ends, with at most 1024 bytes of the last round unanswered, and its status says why (C62_echo_partial); an interrupted wait for input leaves nothing unanswered (C62_interrupted_wait); bursts that are read before the peer closes come back completely (C62_bursts_come_back). The full claim is false of the code: bytes that are read together with the end of the stream are dropped (C62_sent_and_closed says exactly which, C62_echo_refuted)."
 ],
 "C63": [
  "partial",
  "Proved for every history of connections accepted, refused while shutting down, refused for lack of memory for their socket, served and ended, with any reuse of descriptor numbers: the open descriptors are the server's own and one per connection being served, and every other accepted one was closed, once (C63_connections_partial, C63_served_partial); the listening socket is closed on every failure, once, and the cause reported (C63_listening). The rest is false of the code: if the context cannot be allocated (C63_context_refuted) or the fiber not added to the scheduler (C63_add_refuted) the descriptor is closed twice; if the fiber cannot be created (C63_fiber_refuted) or the socket not be wrapped (C63_wrap_refuted) a null pointer is used."
 ],
 "C64": [
  "partial",
  "Proved for every number of workers, lines and frames and every schedule in which the main thread's wait does not end without a signal, whatever calls fail: the files are complete frames in order, and all of them if main returns (C64_frames_partial). If nothing fails: nothing is undefined, lines are drawn once and for their frame, memory is freed (C64_calm_partial), the number of steps is bounded (C64_bounded), and the program goes on until all frames are written if a worker waits before the main thread has the lock (C64_goes_on_partial). The rest is false of the code: if no worker waits yet when the first frame starts, nothing is ever written, for every configuration (C64_lost_wakeup, C64_all_frames_refuted); if the main wait ends without a signal, uninitialised pointers are used or lines are missing (C64_early_refuted); frames without lines never complete (C64_no_lines_refuted); if the main thread's signal or wait fails it locks the mutex that it holds (C64_main_fails_refuted); workers that fail lose their line, may keep the lock, and use a null pointer without memory (C64_worker_fails). The rest of the cleanup is C67, the pixels C66."
 ],
 "C65": [
  "partial",
  "Proved for every server state reached from the start of main, over any tree, with any connections, kernel answers and failures of epoll_ctl, as long as no other fiber is ready when the main fiber acts on a message: no step is undefined (C65_safe_partial); only read messages disturb a connection (C65_untouched_partial); after the first request all connections and their fibers are gone for good and the listener refuses (C65_quiesced_partial); when the main fiber leaves its loop well it has read both messages, and only the signal socket and the fibers main, manager and idle are left (C65_terminated_partial); a request comes back within 7 steps per ready fiber (C65_prompt_partial). The start succeeds always (C65_startup). What a connection's fiber does after each outcome of a read or write, and what the main fiber does when a round fails, are C65_connection and C65_idle_fails. Without that condition it is false of the code: a connection reported ready in the same round as the signal is resumed after its release (C65_ready_refuted); one accepted in that round is not told and served on (C65_unserved_refuted); a signal before the listener has run leaves a connection open at the end (C65_left_open_refuted). Not modelled: running out of memory, the cleanup behind main's loop (C68), what the connections transfer (C62)."
 ],
 "C66": [
  "partial",
  "For every arithmetic, size, centre and frame: the file has the header and three samples per pixel, the third determined by when the orbit of the pixel's point leaves the circle (C66_file_partial); if no pixel is brighter than 127 it is a valid picture (C66_picture_partial); names are distinct and sort with the frames (C66_names, C66_default_names); what is printed (C66_console); under every schedule in which main's wait ends only by a signal, each file is that of its frame (C66_threads_partial). False in general: a pixel of brightness 128 or more is printed as a number of about 2^32, because the buffer is of signed char, and the file is invalid (C66_bright_refuted), which happens in frame 0 of the default configuration (C66_default_refuted, in fixed point of 48 bits). Missing lines make a file too short (C66_missing); when the behaviour is defined is C66_defined. long double is any arithmetic; only its operations' order is modelled."
 ],
 "C67": [
  "partial",
  "Proved for all answers of all calls: nothing is released that is not held, nothing twice (C67_safe); a failure before the threads are made returns its code and undoes all in reverse order, except the configuration's struct, which is never reclaimed (C67_start_partial); likewise if the lock fails and the workers end (C67_lock_partial); main returns 0 only if nothing failed and otherwise the code of the failed step (C67_codes); when and with which code it calls exit (C67_exit). False of the code: if a thread cannot be made, null pointers are released (C67_thread_refuted); if waking or waiting fails in a frame, main hangs (C67_frame_refuted); if nothing fails, it releases none of lock, threads, conditions, mutex and arrays (C67_done_refuted)."
 ],
 "C68": [
  "partial",
  "Proved for all answers of all calls: nothing is released that is not held, nothing twice (C68_safe); a failure up to adding the listener leaves nothing and is returned (C68_start_partial); what is returned when the start fails and releases may fail too (C68_reported); main returns success exactly if nothing failed (C68_zero). False of the code: if the signal thread cannot be started, the listener's context is left (C68_context_refuted); if main's socket cannot be made, the pair, two contexts and a socket are left, and without a signal it hangs (C68_right_refuted); after the loop both sockets and the signal thread's context are left (C68_left_refuted); the shell sees 0 for running out of memory and for failed reads, whose low eight bits are 0 (C68_exit_refuted). The loop's result is an answer here (C65); the fibers of connections are not counted (C63, C65)."
 ],
 "C69": [
  "partial",
  "Proved for every number of steps and all results: what a ladder of steps and cleanups evaluates and returns when a step fails (C69_failure), when none fails (C69_success), and that it returns success exactly if nothing failed (C69_returns); under an if with braces the macros do what they say (C69_braced). False: they are several statements, so under an if without braces only the evaluation is conditional, and an older status decides (C69_unbraced_refuted); CONTROL_PREAMBLE leaves both variables uninitialised, so a function that only cleans up returns an indeterminate value (C69_unset_refuted)."
 ],
 "C70": [
  "partial",
  "Proved for asynchronous sockets on both ends, all schedules of short and blocking calls, all sequences of valid values (C70_async_partial) and conversations of any number of turns (C70_conversation_partial); for buffered readers of sockets that fail only at the end, in particular of plain descriptors that deliver in any pieces (C70_buffered_partial, C70_buffered_descriptor_partial); for plain descriptors whose calls transfer all they are asked to (C70_plain_partial). False: a plain descriptor's reader or writer fails in the middle of a value if a call transfers less, and what follows is out of step (C70_short_read_refuted, C70_short_write_refuted); a buffered reader of an asynchronous socket loses what arrived together with the close (C70_buffered_async_refuted) and does not wait for what has not arrived (C70_buffered_wait_refuted)."
 ],
 "C71": [
  "partial",
  "Proved for all sets of imports that compile and all arguments: calls and types (C71_reaches, C71_type_names), imports keep what the file declared (C71_keeps), all headers under one prefix or none (C71_together), several prefixes without underscores (C71_prefixes_partial), versions (C71_versions, C71_assembly), no imported name is a symbol (C71_hidden), declared types and checks but for two functions (C71_declared_partial), all functions imported but for two (C71_complete_partial), calls reach defined functions but for 22 names (C71_links_partial). False: prefixes can combine with names to the same identifier (C71_prefixes_refuted); string.h's import clashes with the C library's strdup (C71_strdup_refuted); resource_release's import loses the must-check mark, bigint_modulus_int's a const (C71_checked_refuted, C71_const_refuted); two functions have no import (C71_complete_refuted); 22 imported functions are not defined (C71_links_refuted). Not modelled: the internal import macros. ImpTable.v is written from the headers by tools/imports.py."
 ],
 "C72": [
  "partial",
  "Proved for every callback that names only parked fibers or the running one and releases only parked ones: all histories (C72_follows), creation (C72_create) and release (C72_release); for any callbacks and any number of schedulers, no execution is in two places (C72_one_place) and, if no fiber is released, none is lost (C72_none_lost, C72_apart). False of the documentation: NULL on failure (C72_null_refuted); a failing callback ends the process (C72_abort_refuted); the callback may release a fiber when it ends (C72_stop_refuted); an ended fiber that is resumed kills the process (C72_returned_refuted); a fiber added to another scheduler than it was made for tells the wrong one of its end (C72_other_refuted)."
 ],
 "C73": [
  "partial",
  "Proved for every history that SchedModel answers in which neither the running nor the main fiber is released and only fibers' functions return (C73_runs_partial), and with C35 for the answers of the specification (C73_scheduled_partial). Without that it is false: the scheduler releases the running fiber itself when it is ready and the reclaim of its queue entry fails, and its code goes on on the released stack (C73_released_refuted); a fiber whose failed addition left it ready is resumed after its end and ends the process (C73_ends_refuted)."
 ],
 "C74": [
  "partial",
  "Proved for buffers with a byte to spare beyond the text and its NUL, over any socket that fails only at the end of its stream (C74_read_partial), and from end to end from an asynchronous socket (C74_async_partial) or a plain descriptor with short writes (C74_plain_partial) to a buffered reader of a plain descriptor. With a buffer that the text and its NUL fill exactly it is false: whether the line is read or reported as truncated, with an empty line to follow, depends on the pieces in which it came (C74_exact_fit_refuted). Buffered readers of asynchronous sockets lose data (C70)."
 ],
 "C75": [
  "partial",
  "Proved for the forty-two functions for which `extra` (DocSpec.v) is empty (C75_documented_partial); C75_exact says of all fifty exactly which codes they return, each with a call that does. False of the other eight (C75_undocumented_refuted) and of functions that hand on any code of what they call (C75_forwarded_refuted); the documented error for an equal key in a tree does not exist (C75_duplicate_refuted). The headers' lists are transcribed in DocSpec.v with their lines."
 ],
 "C76": [
  "partial",
  "Proved: a variable that is NULL before the call is NULL after every failure (C76_null_partial), nine functions store NULL (C76_stored_partial), those that promise to change nothing do not (C76_unchanged), and reads of values and blocks store nothing when they fail (C76_values, C76_blocks). False of the other twenty-three (C76_stale_refuted), of psock_read_raw (C76_read_raw_refuted), rcpr_uuid_parse_string (C76_uuid_refuted) and rbtree_delete (C76_delete_refuted)."
 ],
 "C77": [
  "partial",
  "Proved: whatever fails, a release is defined, touches only what belongs to the resource and, if nothing fails, gives all of it back with success; success means that all was given back but descriptors (C77_release_partial). The resource still belongs to the caller after a failure if it is a list, a lock or one block (C77_still_owned_partial) or a stack (C77_stack_partial). A condition on which fibers wait is given back without them if nothing fails (C77_condition_partial). False of the other resources: a second release is undefined or does nothing (C77_again_refuted). Also refuted: the stack of a fiber is lost (C77_stack_lost_refuted), close may fail unnoticed (C77_close_refuted), the status may be that of the thread (C77_thread_refuted), a condition may release a fiber that it does not own (C77_waiter_refuted), a scheduler does not give back its context (C77_context_refuted) and may release a fiber twice (C77_run_queue_refuted). But for the context a scheduler is given back completely if nothing fails (C77_scheduler_partial). Allocators are not modelled here."
 ]
}