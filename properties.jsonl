{"id": "C01", "title": "String split returns the first-delimiter partition", "statement": "split(&lhs,&rhs,s,d) splits s at the first occurrence of d: lhs is the text before it, rhs the text after it, lhs+d+rhs is the original text and d does not occur in lhs; when d does not occur, STATUS is ERROR_STRING_END_OF_INPUT and s is unchanged. This is expected for every delimiter byte the caller passes.", "quantifier": "every NUL-terminated byte string and every delimiter value", "why_tests_cant": "The set of strings is infinite and the char/int promotion of the delimiter only matters for bytes >= 0x80, which text fixtures do not contain.", "anchors": ["src/string/split.c", "include/rcpr/string.h"]}
{"id": "C02", "title": "Trim functions remove exactly the surrounding white space", "statement": "left_trim returns the longest suffix not starting with white space; right_trim truncates in place to the longest prefix not ending in white space; trim does both; chomp/trim never touch bytes outside the string and are idempotent.", "quantifier": "every NUL-terminated byte string", "why_tests_cant": "Correctness at every length and every mix of white space (empty, all-blank, interior blanks) is a universally quantified statement.", "anchors": ["src/string/left_trim.c", "src/string/right_trim.c", "src/string/trim.c", "src/string/chomp.c", "src/string/is_whitespace.c"]}
{"id": "C03", "title": "Prefix and suffix tests decide exactly what they claim", "statement": "starts_with(s,p) succeeds iff p is a prefix of s; ends_with(s,c) is true iff s is non-empty and its last character is c.", "quantifier": "every pair of strings / every string and character", "why_tests_cant": "Needs all strings and all byte values, including bytes >= 0x80 where plain char is signed.", "anchors": ["src/string/starts_with.c", "src/string/ends_with.c"]}
{"id": "C04", "title": "Word iteration yields exactly the maximal non-blank runs", "statement": "Iterating words over s until ERROR_STRING_END_OF_INPUT returns, in order, exactly the maximal runs of non-white-space characters of s, each NUL-terminated in place; multisplit does the same for a caller-supplied delimiter predicate.", "quantifier": "every NUL-terminated string and every delimiter predicate", "why_tests_cant": "An iterator has unbounded history; each call depends on destructive edits made by all earlier calls.", "anchors": ["src/string/words.c", "src/string/multisplit.c"]}
{"id": "C05", "title": "String construction is exact and leak-free under every allocation failure", "statement": "strdup returns a fresh copy equal to its input; strcatv/vstrcat return the concatenation of all arguments in order; when the allocation fails the error is returned, nothing is leaked and the output parameter is not set to a live block.", "quantifier": "every list of strings and every allocation outcome", "why_tests_cant": "Argument lists have unbounded length and allocation may fail at any call.", "anchors": ["src/string/strdup.c", "src/string/vstrcat.c"]}
{"id": "C06", "title": "UUID text form round-trips", "statement": "rcpr_uuid_parse_string(rcpr_uuid_to_string(u)) = u for every uuid, and parsing accepts exactly the 36-character 8-4-4-4-12 hexadecimal form (either case) and nothing else.", "quantifier": "every 128-bit value and every input string", "why_tests_cant": "2^128 values; the accept language needs all strings.", "anchors": ["src/uuid/rcpr_uuid_parse_string.c", "src/uuid/rcpr_uuid_to_string.c", "src/uuid/rcpr_uuid_parse_raw_string.c"]}
{"id": "C07", "title": "Network byte order conversion", "statement": "hton/ntoh 16/32/64 are mutually inverse, and the converted value's little-endian memory image is the big-endian encoding of the argument, for signed and unsigned values.", "quantifier": "every 16, 32 and 64 bit value", "why_tests_cant": "2^64 values.", "anchors": ["src/socket_utilities/socket_utility_hton64.c", "include/rcpr/byteswap.h"]}
{"id": "C08", "title": "Boxed values written to a socket are read back unchanged", "statement": "For every finite sequence of boxed values (bool, signed/unsigned 8/16/32/64-bit integers, strings, byte arrays shorter than 2^32), writing them to an in-memory socket, taking the output buffer and reading it with the matching readers returns exactly the same sequence and then end of file.", "quantifier": "every finite sequence of boxed values", "why_tests_cant": "Unbounded sequences and full integer ranges; framing errors only surface for particular sequences of sizes.", "anchors": ["src/psock/psock_write_boxed_*.c", "src/psock/psock_read_boxed_*.c", "src/psock/psock_from_buffer_*.c"]}
{"id": "C09", "title": "Boxed reads are type-safe", "statement": "Reading a boxed value with the reader of a different type returns ERROR_PSOCK_READ_BOXED_INVALID_TYPE and leaves the output parameter unset, for every stream whose next tag is not the reader's tag.", "quantifier": "every input byte stream and every reader", "why_tests_cant": "All 2^32 tags times all streams.", "anchors": ["src/psock/psock_read_boxed_*.c", "include/rcpr/psock.h"]}
{"id": "C10", "title": "A successful boxed data write is a decodable frame for every length", "statement": "If psock_write_boxed_data(sock,data,n) returns STATUS_SUCCESS then psock_read_boxed_data on the bytes written returns data and n, for every n. (Expected by users; the code truncates n to 32 bits.)", "quantifier": "every byte array length", "why_tests_cant": "Lengths >= 2^32 cannot be allocated in a unit test.", "anchors": ["src/psock/psock_write_boxed_data.c:66"]}
{"id": "C11", "title": "Raw block transfers are complete whatever the chunking", "statement": "psock_read_raw_data(n) either returns exactly the next n bytes of the stream in order, or an error with every buffer reclaimed; psock_write_raw_data(n) succeeds only after exactly the n bytes were accepted in order; for every pattern of short reads/writes of the transport.", "quantifier": "every transport chunking schedule and every n", "why_tests_cant": "The transport may split the transfer at any of 2^(n-1) places and fail at any call.", "anchors": ["src/psock/psock_read_raw_data.c", "src/psock/psock_write_raw_data.c"]}
{"id": "C12", "title": "In-memory socket output is the concatenation of the writes", "statement": "After any sequence of successful writes, psock_from_buffer_get_output_buffer returns exactly the bytes written, in order, across the 4096-byte buffer boundaries and the large-write fast path.", "quantifier": "every sequence of writes of every size", "why_tests_cant": "The boundary behaviour depends on the whole history of write sizes.", "anchors": ["src/psock/psock_from_buffer_write.c", "src/psock/psock_from_buffer_get_output_buffer.c"]}
{"id": "C13", "title": "A failed in-memory socket write leaves the output unchanged", "statement": "If psock_from_buffer_write reports an error, the bytes returned later by psock_from_buffer_get_output_buffer are exactly those of the successful writes.", "quantifier": "every write history and every allocation failure point", "why_tests_cant": "Requires injecting a failure at every allocation of every history.", "anchors": ["src/psock/psock_from_buffer_write.c:92-131,184-186"]}
{"id": "C14", "title": "In-memory socket input is delivered exactly once in order", "statement": "Reads from a socket created from a buffer return consecutive slices of the buffer; the concatenation of all slices is a prefix of the buffer and ERROR_PSOCK_READ_EOF is returned exactly when it is exhausted.", "quantifier": "every buffer and every sequence of read sizes", "why_tests_cant": "Depends on unbounded read histories.", "anchors": ["src/psock/psock_from_buffer_read.c"]}
{"id": "C15", "title": "Blocking async reads return exactly the requested bytes for every readiness schedule", "statement": "A blocking read of n bytes on an async-wrapped socket that returns STATUS_SUCCESS delivered exactly the next n bytes of the descriptor's stream, whatever the interleaving of partial reads and would-block waits; async writes likewise hand over every byte exactly once, in order.", "quantifier": "every schedule of partial transfers, would-blocks and wakeups", "why_tests_cant": "Kernel readiness schedules are nondeterministic and unbounded.", "anchors": ["src/psock/psock_wrap_async_read.c", "src/psock/psock_wrap_async_write.c", "src/psock/psock_read_block.c"]}
{"id": "C16", "title": "No received byte is lost at end of stream", "statement": "Every byte the peer sent before closing is delivered to a user reading an async socket with psock_read_raw or through a buffered reader.", "quantifier": "every stream, chunking and read size", "why_tests_cant": "The loss needs the data and the close to arrive in one particular order relative to a read.", "anchors": ["src/psock/psock_wrap_async_read.c:104-107", "src/psock/psock_read_raw.c:89-95", "src/psock/psock_br_fill.c:67-80"]}
{"id": "C17", "title": "Buffered reads deliver the stream exactly once in order", "statement": "The bytes returned by any sequence of successful psock_br reads (block or non-block, any sizes) concatenate to a prefix of the wrapped stream; the reader never over-runs its buffer and never asks the wrapped socket for zero bytes.", "quantifier": "every stream, chunking and sequence of read sizes", "why_tests_cant": "Depends on unbounded histories of fills, compactions and partial reads.", "anchors": ["src/psock/psock_br_psock_read.c", "src/psock/psock_br_fill.c"]}
{"id": "C18", "title": "read_line returns the next line of the stream", "statement": "psock_br_read_line stores in the caller's buffer the next line without its newline, NUL-terminated and within the stated size, and consumes exactly that line and its newline; a longer line is returned in pieces with ERROR_PSOCK_BR_READ_LINE_TRUNCATED; no write goes past the buffer.", "quantifier": "every stream, buffer size and reader state", "why_tests_cant": "All streams, all chunkings and all buffer sizes.", "anchors": ["src/psock/psock_br_read_line.c"]}
{"id": "C19", "title": "read_line's result does not depend on how the bytes arrived", "statement": "Two connections carrying the same bytes produce the same sequence of read_line results, whatever the chunk boundaries and whatever transient would-block conditions occur.", "quantifier": "every stream and every pair of chunkings", "why_tests_cant": "The difference appears only when a chunk ends exactly at the caller's buffer limit.", "anchors": ["src/psock/psock_br_read_line.c:126-168"]}
{"id": "C20", "title": "Buffered-reader creation reports allocation failure", "statement": "psock_br_create_from_psock returns STATUS_SUCCESS only if *br is a valid reader, for every allocation failure.", "quantifier": "every allocation outcome", "why_tests_cant": "Requires failing the second allocation only.", "anchors": ["src/psock/psock_br_create_from_psock.c:130-135"]}
{"id": "C21", "title": "Bump allocations are aligned, in bounds and pairwise disjoint", "statement": "All blocks returned by a bump allocator between two resets are 16-byte aligned, lie inside the caller's region after the allocator header, and do not overlap, for every request size.", "quantifier": "every region, every sequence of requests including sizes near 2^64", "why_tests_cant": "Sequences are unbounded and the size arithmetic is modulo 2^64.", "anchors": ["src/allocator/bump_allocator_create.c"]}
{"id": "C22", "title": "Bump allocator failure and reset are exact", "statement": "A request that does not fit fails with ERROR_GENERAL_OUT_OF_MEMORY without side effects, reclaim is a no-op, reallocate is refused, and reset makes the whole region available again.", "quantifier": "every history of operations", "why_tests_cant": "Unbounded histories.", "anchors": ["src/allocator/bump_allocator_create.c", "src/allocator/bump_allocator_reset.c"]}
{"id": "C23", "title": "Singly-linked list behaves as a sequence", "statement": "Any history of slist insert_head / append_tail / node append / node next_pop / pop / clear / release / head / tail / count behaves as the same operations on a mathematical sequence, with no invalid memory access, and with count equal to its length.", "quantifier": "every history of operations and every allocation failure", "why_tests_cant": "Pointer manipulation correctness depends on the whole history.", "anchors": ["src/slist/*.c"]}
{"id": "C24", "title": "Doubly-linked list behaves as a sequence", "statement": "Any history of list insert_head / append_tail / node insert / node append / pop / clear / release behaves as the operations on a mathematical sequence; forward and backward links always agree; no invalid memory access.", "quantifier": "every history of operations", "why_tests_cant": "Pointer manipulation correctness depends on the whole history.", "anchors": ["src/list/*.c"]}
{"id": "C25", "title": "Queue is FIFO", "statement": "queue_append/queue_pop deliver elements in first-in-first-out order, queue_insert puts an element in front, count is exact, and popping an empty queue changes nothing.", "quantifier": "every history of operations", "why_tests_cant": "Unbounded histories.", "anchors": ["src/queue/*.c"]}
{"id": "C26", "title": "List clear/release releases every element exactly once", "statement": "list_clear, slist_clear, and the release functions release every child resource exactly once and leave an empty, usable list, even when releasing a child reports an error.", "quantifier": "every list content and every pattern of child release failures", "why_tests_cant": "Failure of the k-th release must be injected for every k.", "anchors": ["src/list/list_clear.c", "src/slist/slist_clear.c"]}
{"id": "C27", "title": "Swapped lists remain independent, consistent lists", "statement": "After list_swap/slist_swap each list holds the other's elements and all later operations, including those through nodes, keep both lists consistent.", "quantifier": "every pair of lists and every later history", "why_tests_cant": "The inconsistency appears only in operations that go through a node's parent pointer after a swap.", "anchors": ["src/list/list_swap.c", "src/slist/slist_swap.c"]}
{"id": "C28", "title": "Red-black tree insert/find/count refine a sorted multiset", "statement": "After any history of insertions, rbtree_find(k) returns an element with key k iff one was inserted, rbtree_count is the number inserted, in-order traversal by minimum/successor visits all the elements in key order, and no invalid access occurs.", "quantifier": "every total order on keys and every insertion history", "why_tests_cant": "Rotations depend on the whole history; all shapes must be covered.", "anchors": ["src/rbtree/rbtree_insert_node.c", "src/rbtree/rbtree_insert_fixup.c", "src/rbtree/rbtree_find_node.c"]}
{"id": "C29", "title": "Red-black tree height is logarithmic", "statement": "After any history of insertions the tree is a red-black tree, so its height is at most 2*log2(n+1).", "quantifier": "every insertion history", "why_tests_cant": "All shapes of all sizes.", "anchors": ["src/rbtree/rbtree_insert_fixup.c"]}
{"id": "C30", "title": "Red-black tree delete removes exactly the requested element", "statement": "rbtree_delete(k) removes one element with key k and no other: all other elements can still be found, and the count equals the number of reachable elements, in every history of inserts and deletes.", "quantifier": "every history of inserts and deletes", "why_tests_cant": "The defect needs a specific sequence of at least twelve operations on an unbalanced tree.", "anchors": ["src/rbtree/rbtree_delete_fixup.c:28,69", "src/rbtree/rbtree_remove_node.c"]}
{"id": "C31", "title": "Swapped trees are independent", "statement": "After rbtree_swap, each tree can be used and released independently of the other.", "quantifier": "every pair of trees", "why_tests_cant": "Needs reasoning about the address of an embedded sentinel node.", "anchors": ["src/rbtree/rbtree_swap.c"]}
{"id": "C32", "title": "Bigint creation and cloning", "statement": "bigint_create_zero(n) yields a zero value of exactly ceil(n/64) limbs, clone yields an equal independent value, and all allocations are reclaimed on failure and on release, the limbs after being cleared.", "quantifier": "every bit size and every allocation outcome", "why_tests_cant": "All sizes and failure points.", "anchors": ["src/bigint/*.c"]}
{"id": "C33", "title": "Auto-reset trigger fires each registered callback at most once per signal", "statement": "For every history of register/signal/step, a callback runs only in step, only if a signal was given and it is registered, at most once per registration, and double registration is refused without changing state.", "quantifier": "every history of operations", "why_tests_cant": "Unbounded histories.", "anchors": ["src/auto_reset_trigger/*.c"]}
{"id": "C34", "title": "Descriptor moves put every descriptor at its target", "statement": "socket_utility_move_descriptors and socket_utility_setfds leave each named open file description at its requested descriptor number, for every list of distinct open descriptors.", "quantifier": "every descriptor table and every request list", "why_tests_cant": "Collisions between sources and targets are combinatorial.", "anchors": ["src/socket_utilities/vsocket_utility_move_descriptors.c", "src/socket_utilities/vsocket_utility_setfds.c"]}
{"id": "C35", "title": "The disciplined scheduler runs ready fibers in FIFO order and loses none", "statement": "Every fiber that is made ready (added, yielded to run, or resumed by a discipline) is resumed exactly once per readiness, in first-in-first-out order, with the resume event it was given, for every history of yields.", "quantifier": "every history of yields, additions and stops", "why_tests_cant": "Schedules are unbounded.", "anchors": ["src/fiber/common/fiber_scheduler_create_with_disciplines.c"]}
{"id": "C36", "title": "Discipline yields reach exactly the right callback", "statement": "After any sequence of discipline registrations, a yield of event i by discipline d invokes d's i-th callback with d's context, and an event number outside d's table is refused with ERROR_FIBER_SCHEDULER_BAD_YIELD_EVENT without any out-of-bounds access.", "quantifier": "every set of disciplines and every event number", "why_tests_cant": "Offsets depend on registration order and table sizes.", "anchors": ["src/fiber/common/fiber_discipline_yield.c:65", "src/fiber/common/fiber_scheduler_discipline_add.c"]}
{"id": "C37", "title": "Quiesce and termination requests reach running fibers exactly once and lose no pending event", "statement": "A quiesce/terminate request to a fiber (or all fibers) resumes each running target with that event once, and does not lose or duplicate a wakeup the target was already going to receive.", "quantifier": "every scheduler state", "why_tests_cant": "The collision needs the target to be already queued.", "anchors": ["src/fiber/common/fiber_scheduler_create_with_disciplines.c", "src/fiber/common/fiber_management_discipline_*.c"]}
{"id": "C38", "title": "Disciplined scheduler creation reports failure and releases everything", "statement": "fiber_scheduler_create_with_disciplines either returns a usable scheduler or an error with no memory leaked, and releasing a scheduler reclaims everything it allocated.", "quantifier": "every allocation failure point", "why_tests_cant": "Each of the many allocations must fail in turn.", "anchors": ["src/fiber/common/fiber_scheduler_create_with_disciplines.c"]}
{"id": "C39", "title": "Mailbox messages are delivered exactly once in FIFO order", "statement": "Messages successfully sent to a mailbox are received from it in the order sent, each exactly once, whether the receiver blocks before or after the send.", "quantifier": "every interleaving of sends and receives", "why_tests_cant": "All interleavings of unboundedly many operations.", "anchors": ["src/message/message_discipline_*_callback_handler.c"]}
{"id": "C40", "title": "Mailbox addresses are unique and open mailboxes stay reachable", "statement": "mailbox_create returns an address different from every earlier one, and a mailbox stays reachable until it is closed.", "quantifier": "every history of creates and closes", "why_tests_cant": "Unbounded histories; interacts with tree deletion.", "anchors": ["src/message/message_discipline_mailbox_create_callback_handler.c", "src/rbtree/rbtree_delete_fixup.c"]}
{"id": "C41", "title": "Mailbox and condition creation report allocation failures", "statement": "mailbox_create / condition_create return STATUS_SUCCESS only if an address was stored, for every allocation failure.", "quantifier": "every allocation failure point", "why_tests_cant": "The failing allocation must be the one inside the tree insert.", "anchors": ["src/message/message_discipline_mailbox_create_callback_handler.c:80-86", "src/condition/condition_discipline_create_callback_handler.c:80-86"]}
{"id": "C42", "title": "A fiber blocked on a mailbox or condition that is closed is eventually resumed", "statement": "Closing a mailbox or condition wakes any fiber blocked on it with a failure.", "quantifier": "every history", "why_tests_cant": "A lost fiber is a liveness failure that tests see only as a hang.", "anchors": ["src/message/message_discipline_mailbox_close_callback_handler.c", "src/condition/condition_discipline_close_callback_handler.c"]}
{"id": "C43", "title": "Condition notifications wake waiters in FIFO order", "statement": "notify_one wakes the longest-waiting fiber and only it; notify_all wakes all current waiters in waiting order; a notify with no waiter has no effect on later waiters.", "quantifier": "every history of waits and notifications", "why_tests_cant": "All interleavings.", "anchors": ["src/condition/condition_discipline_*_callback_handler.c"]}
{"id": "C44", "title": "Fiber switch preserves the execution context", "statement": "A fiber that is switched out and later switched back in continues after its switch call with all callee-saved registers, stack pointer and floating point control words as they were, and observes exactly the resume values passed by the resumer.", "quantifier": "every register content and every switch history between fibers", "why_tests_cant": "All register values and all interleavings of switches.", "anchors": ["src/fiber/platform/sysv/x86_64/fiber_switch.s", "src/fiber/platform/sysv/x86_64/fiber_make.s"]}
{"id": "C45", "title": "A fiber waiting for I/O readiness is always resumed", "statement": "If a fiber waits for readability/writability on an async socket and the descriptor becomes ready, hangs up or fails, the fiber is resumed; no other fiber's activity on the same socket can cancel its wait.", "quantifier": "every interleaving of fibers and readiness events", "why_tests_cant": "Lost wakeups need a particular interleaving of two fibers and the idle fiber.", "anchors": ["src/psock/platform/epoll/psock_idle_fiber_entry.c", "src/psock/platform/poll/psock_idle_fiber_entry.c", "src/psock/psock_read_block.c:104-106"]}
{"id": "C46", "title": "Status codes identify one error each", "statement": "Every error code is non-zero and negative, encodes its component and reason uniquely, and no two named status codes are equal.", "quantifier": "every component and reason", "why_tests_cant": "The encoding must be injective for all 16-bit components and 15-bit reasons.", "anchors": ["include/rcpr/status.h", "include/rcpr/component.h", "include/rcpr/status/*.h"]}
{"id": "C47", "title": "Threads return their exit status and mutex locks exclude", "statement": "Releasing a thread waits for it and returns its exit status or the join/reclaim error; a mutex lock resource is held by at most one thread at a time.", "quantifier": "every thread interleaving and every pthread outcome", "why_tests_cant": "Schedules are unbounded.", "anchors": ["src/platform/pthread/thread/*.c"]}
{"id": "C48", "title": "Constructors leak nothing on failure", "statement": "Every create function that reports an error has reclaimed all memory it allocated, for every allocation failure point; every release function reclaims everything the object owns exactly once.", "quantifier": "every allocation failure point of every constructor", "why_tests_cant": "Needs a fault at every allocation of every constructor.", "anchors": ["src/*/**_create*.c"]}
{"id": "C49", "title": "The malloc allocator loses no block on failure", "statement": "A failed allocation leaves the heap as it was and the caller's pointer NULL; a failed reallocation leaves the caller's block live and unchanged; a successful reallocation keeps the common prefix; reclaim frees exactly the given block.", "quantifier": "every heap, every block, every size including 0 and every outcome of the C library calls", "why_tests_cant": "The C library's failures and its treatment of size 0 cannot be provoked by tests at will.", "anchors": ["src/allocator/malloc_allocator_create.c"]}
{"id": "C50", "title": "Descriptor housekeeping touches exactly what it names", "statement": "close_other_fds closes every descriptor above the given one and no other, close_standard_fds closes descriptors 0, 1 and 2 and no other, set_nonblock adds the non-blocking flag and changes no other flag or nothing on failure, and socketpair stores both descriptors or neither.", "quantifier": "every descriptor table, every descriptor number, every flag word, every outcome of the system calls", "why_tests_cant": "The set of open descriptors and flag words is unbounded and system call failures cannot be provoked at will.", "anchors": ["src/socket_utilities/socket_utility_close_other_fds.c", "src/socket_utilities/socket_utility_close_standard_fds.c", "src/socket_utilities/socket_utility_set_nonblock.c", "src/socket_utilities/socket_utility_socketpair.c"]}
{"id": "C51", "title": "psock_read_raw and descriptor transfers report faithfully", "statement": "psock_read_raw returns the status, size and bytes of one non-blocking read of the socket; on an error other than would-block the caller's size is left as given. A descriptor read or write reports exactly the bytes the kernel transferred, would-block for EAGAIN/EWOULDBLOCK and a general error for any other errno.", "quantifier": "every socket, size, kernel behaviour and errno", "why_tests_cant": "All errno values and all transfer sizes of the kernel.", "anchors": ["src/psock/psock_read_raw.c", "src/psock/psock_from_descriptor_read.c", "src/psock/psock_from_descriptor_write.c"]}
{"id": "C52", "title": "Optional socket methods are dispatched, reported missing, or retried until they complete", "statement": "accept, sendmsg, recvmsg and setsockopt report an invalid vtable, ERROR_PSOCK_METHOD_UNDEFINED when the socket kind has no such method, or the method's own status; on an asynchronous socket would-block outcomes are retried after waiting on the right side and the first other outcome is returned.", "quantifier": "every socket kind, return value, errno and number of would-blocks", "why_tests_cant": "Unbounded numbers of would-blocks in every order.", "anchors": ["src/psock/psock_accept.c", "src/psock/psock_wrap_async_accept.c", "src/psock/psock_wrap_async_sendmsg.c", "src/psock/psock_wrap_async_recvmsg.c", "src/psock/psock_br_psock_accept.c"]}
{"id": "C53", "title": "The management fiber is told of every fiber that joins or stops", "statement": "A fiber that waits for management events is the next to run when a fiber is added or stops, and receives the event with that fiber; no such event is missed.", "quantifier": "every scheduler history", "why_tests_cant": "Events that occur while the management fiber is busy depend on the schedule.", "anchors": ["src/fiber/common/fiber_scheduler_create_with_disciplines.c:818-952", "src/fiber/common/disciplined_fiber_scheduler_receive_management_event.c"]}
{"id": "C54", "title": "A failed discipline registration leaves the scheduler unchanged", "statement": "If fiber_scheduler_discipline_add fails, no callback, discipline or lookup of the scheduler has changed.", "quantifier": "every scheduler state and allocation failure point", "why_tests_cant": "Each allocation of the registration must fail in turn.", "anchors": ["src/fiber/common/fiber_scheduler_discipline_add.c:51-163"]}
{"id": "C55", "title": "Messages keep their payload and return address and release what they own", "statement": "A message carries from its creation to its receipt the return address and the payload it was made with; sending it writes only its destination. Releasing a message releases its payload exactly once, unless the payload was NULL or ownership was taken with message_payload, after which the message has none.", "quantifier": "every message, state and sequence of sends and receives", "why_tests_cant": "The values must survive every handler on every path, including waits in mailboxes and failures.", "anchors": ["src/message/message_create.c", "src/message/message_payload.c", "src/message/message_return_address.c", "src/message/fiber/message_send.c", "src/message/fiber/message_discipline_message_send_callback_handler.c"]}
{"id": "C56", "title": "A wait on a condition gives up its lock, is woken by signals and returns with the lock", "statement": "While thread_cond_wait waits the caller does not hold the lock, and when it returns successfully the caller, and nobody else, holds it again; a wait that fails leaves the lock held. thread_cond_signal_one wakes at least one waiting thread if there is one, thread_cond_signal_all wakes all, and neither changes who holds a lock. A woken thread returns as soon as its lock is free.", "quantifier": "every history of calls by any number of threads, every interleaving, spurious wake-ups and every result of the pthread calls", "why_tests_cant": "the interleavings of threads and the wake-ups without a signal are not under a test's control", "anchors": ["src/platform/pthread/thread/thread_cond_wait.c:thread_cond_wait", "src/platform/pthread/thread/thread_cond_signal_one.c:thread_cond_signal_one", "src/platform/pthread/thread/thread_cond_signal_all.c:thread_cond_signal_all", "src/platform/pthread/thread/thread_cond_create.c:thread_cond_create"]}
{"id": "C57", "title": "Descriptors are closed once, by whoever owns them", "statement": "A socket that was made from a descriptor, or that opened one by listening or connecting, owns it and closes it exactly once, when the socket (or the one it was wrapped in) is released; a user's release function is called once with the user's context. A constructor that fails closes what it opened and leaves the caller what it was given. A descriptor that was accepted or received belongs to the caller. At every moment the open descriptors are those that the program and its sockets hold, each held once.", "quantifier": "every history of creating, wrapping, accepting, sending, receiving and releasing, every answer of the kernel and the allocator", "why_tests_cant": "Leaks and double closes hide on the combinations of failure paths, and descriptor numbers are reused by the kernel.", "anchors": ["src/psock/psock_create_from_descriptor.c:78-129", "src/psock/psock_create_from_listen_address.c:62-120", "src/psock/psock_create_from_hostname_and_port.c:65-159", "src/psock/psock_create_from_user_methods.c:92-191", "src/psock/psock_create_wrap_async.c:109-263", "src/psock/psock_from_descriptor_release.c", "src/psock/psock_read_raw_descriptor.c:48-118", "src/psock/psock_write_raw_descriptor.c:48-107"]}
{"id": "C58", "title": "A socket's methods reach what serves them", "statement": "A call to read, write, accept, sendmsg, recvmsg or setsockopt on a socket arrives at the system call on its descriptor, at the function that the user supplied with the user's context, or at the memory or buffer that it reads, through any number of wrapped or buffered sockets; a method that is missing is refused with ERROR_PSOCK_METHOD_UNDEFINED.", "quantifier": "every socket, tower of wrapped and buffered sockets, user vtable and method", "why_tests_cant": "Towers of sockets and partly filled vtables are unbounded in number.", "anchors": ["src/psock/psock_create_from_user_methods.c:39-49", "src/psock/psock_create_from_user_methods.c:206-322", "src/psock/psock_create_wrap_async.c:36-46", "src/psock/psock_br_create_from_psock.c:24-34", "src/psock/psock_create_from_buffer.c:28-38", "src/psock/psock_create_from_descriptor.c:28-38"]}
{"id": "C59", "title": "A blocked call reports only its own outcome", "statement": "What mailbox_create, mailbox_close, message_send, message_receive, the conditional_* calls and the requests to fibers return is the answer of the discipline to this very call: if the fiber is resumed by anything else, the call reports an error and nothing remains of it, or, for a wait on a socket, asks the unexpected-event handler of the waiting fiber (set with fiber_unexpected_event_callback_add, called with its context, the event and what was expected) and goes on waiting if that returns success, and otherwise returns what it says, or ERROR_FIBER_NO_UNEXPECTED_HANDLER if there is none.", "quantifier": "every call, every resume event of every discipline, every history of calls, requests and notifications of any number of fibers, every handler", "why_tests_cant": "Which event resumes a blocked fiber depends on the interleaving of all fibers and disciplines.", "anchors": ["src/message/mailbox_create.c:52-75", "src/message/message_send.c:57-79", "src/message/message_receive.c:59-86", "src/condition/conditional_wait.c:56-72", "src/psock/psock_read_block.c:83-136", "src/psock/psock_write_block.c:80-133", "src/fiber/common/fiber_unexpected_event.c", "src/fiber/common/fiber_unexpected_event_callback_add.c"]}
{"id": "C60", "title": "With kqueue a waiting fiber is resumed exactly when its descriptor is ready, hangs up or fails", "statement": "Where the library uses kqueue: a fiber that waits for a descriptor is resumed, with what it waited for and whether this is the end of the file or an error, when the kernel reports the descriptor ready, hung up or failed or refuses the event; it is not resumed otherwise, and goes on waiting whatever other fibers do. However many fibers wait, the fixed array of events does not overflow and all that are due are resumed after enough rounds. The context gives back its memory and its descriptor.", "quantifier": "every history of calls of any number of fibers and sockets, every answer and refusal of the kernel, every allocation failure", "why_tests_cant": "The array is flushed only after 1024 waits between two rounds; losses need a failure at one particular event of one round.", "anchors": ["src/psock/platform/kqueue/psock_idle_fiber_entry.c:30-118", "src/psock/platform/kqueue/psock_fiber_scheduler_disciplined_read_wait_callback_handler.c", "src/psock/platform/kqueue/psock_fiber_scheduler_disciplined_write_wait_callback_handler.c", "src/psock/platform/kqueue/psock_fiber_scheduler_discipline_context_create.c", "src/psock/platform/kqueue/psock_fiber_scheduler_discipline_set_resource_release.c"]}
{"id": "C61", "title": "Calls through function tables reach the object's own function or are refused", "statement": "A request to a resource, an allocator or a socket whose table of functions is in place calls that table's function for the request exactly once, with the arguments given, and returns its status; an optional function that is missing is reported as an error. In a build with run-time checks of the tables, a request to an object whose table pointer has been overwritten calls nothing: it reports ERROR_GENERAL_BAD_VTABLE (an allocation gives a null pointer), or ends the process if the check is an assertion.", "quantifier": "every build option, placement of the section of tables, content of memory, value of an object's table pointer, request, arguments and status of the called function", "why_tests_cant": "The check is meant to withstand pointers chosen by an attacker; tests use tables that are in place, and debug builds.", "anchors": ["include/rcpr/vtable.h:25-87", "src/resource/resource_release.c:50-73", "src/resource/resource_vtable_read.c:29-57", "src/resource/resource_init.c:26-38", "src/allocator/allocator_allocate.c:41-68", "src/allocator/allocator_reclaim.c", "src/allocator/allocator_reallocate.c", "src/allocator/allocator_control.c", "src/psock/psock_accept.c:60-91", "src/psock/psock_setsockopt.c:46-78", "src/psock/psock_create_from_user_methods.c:157-330"]}
{"id": "C62", "title": "The echo server returns what a connection sends", "statement": "For each connection the echo server sends back the bytes it receives, unchanged and in order, with nothing added: after every round all that was received has been sent; what the peer sent before it closed comes back completely; the connection's fiber ends when the peer closes, when a transfer fails or when a wait is interrupted, and reports why. An interrupted wait for input leaves nothing unanswered.", "quantifier": "every sequence of bytes, every schedule of partial reads and writes, would-blocks and errors, every way a wait can end, every status of releasing the connection", "why_tests_cant": "The outcome depends on how the kernel splits transfers and on when the peer closes relative to the last read; a test sees one such schedule.", "anchors": ["examples/echo_server/src/main.c:1133-1176 (echo_entry)", "examples/echo_server/src/main.c:461-487 (dispatch_context_release)", "src/psock/psock_read_raw.c", "src/psock/psock_write_raw_data.c", "src/psock/psock_wrap_async_read.c", "src/psock/psock_wrap_async_write.c", "src/psock/psock_read_block.c"]}
{"id": "C63", "title": "Every connection the echo server accepts is closed exactly once", "statement": "Every descriptor that the echo server accepts is either closed at once (while the server is shutting down, or when there is no memory to serve it) or handed to a fiber that serves it and closed when that fiber ends. At any time the open descriptors are those the server had before and one for each connection being served; no descriptor is closed twice, so none that another connection has meanwhile been given is closed under it, and none is left open. If the listening socket cannot be set up or accepting fails, its descriptor is closed too and the cause is reported.", "quantifier": "every sequence of connections accepted and ended, in any order, with every reuse of descriptor numbers by the kernel, and every failure of allocation, fiber creation, socket set-up or scheduling at any step", "why_tests_cant": "The failures are allocation failures in the middle of accepting a connection, and a double close shows only if the number has been reused in between; tests of the example accept a few connections with enough memory.", "anchors": ["examples/echo_server/src/main.c:291-391 (dispatch)", "examples/echo_server/src/main.c:461-487 (dispatch_context_release)", "examples/echo_server/src/main.c:1018-1119 (listen_entry)", "src/psock/psock_create_from_descriptor.c", "src/psock/psock_create_wrap_async.c", "src/psock/psock_from_descriptor_release.c"]}
{"id": "C64", "title": "The mandelbrot example writes every frame, complete and in order", "statement": "With any number of worker threads sharing the lines of a frame through the library's mutexes and conditions, the example writes frames 0, 1, ... up to the number asked for, each once and in order, each file with all of its lines in order and every line computed for that frame; no two workers draw the same line, the frame's position is not changed while a line of it is being drawn, and the memory of all lines is freed. If no call fails it does not hang: after a bounded number of steps all frames are written and it returns 0. If a call fails, it stops with an error.", "quantifier": "every number of workers, lines and frames, every interleaving of the threads, every wake-up without a signal, and every failure of a lock, unlock, wait, signal or allocation", "why_tests_cant": "A run of the example shows one interleaving; the wrong ones need the main thread to be faster than the workers at the start, a wait that ends without a signal, or a failing call of pthreads.", "anchors": ["examples/mandelbrot/src/main.c:70-289", "examples/mandelbrot/src/draw_line.c:26-151", "examples/mandelbrot/src/thread.h:14-32", "src/platform/pthread/thread"]}
{"id": "C65", "title": "A signal shuts the echo server down without leaving a connection behind", "statement": "When a signal arrives, the echo server stops serving: the listener refuses new connections, every connection is closed and its fiber released; at the second message the listener is closed too, the main fiber leaves its loop, and nothing is left open but the socket that the signal came by. Until a signal arrives no connection is disturbed. Each of the two requests comes back after a number of steps bounded by the number of fibers, whatever peers do; and at no time is a fiber or a socket used after it was released, or a fiber made ready twice.", "quantifier": "every number of connections, every order in which they arrive, transfer and end, every order and grouping in which the kernel reports sockets as ready, every moment at which the signal arrives, failures of epoll_ctl, any memory contents at start", "why_tests_cant": "The outcome depends on what else is ready in the round in which the signal arrives; a test would have to hit a connection's event in the same epoll_wait as the signal's.", "anchors": ["examples/echo_server/src/main.c:125-236 (main)", "examples/echo_server/src/main.c:553-640 (fiber_manager_entry)", "examples/echo_server/src/main.c:791-819 (listen_fiber_unexpected_handler)", "examples/echo_server/src/main.c:965-1004 (signal_thread_entry)", "examples/echo_server/src/main.c:1018-1119 (listen_entry)", "examples/echo_server/src/main.c:1133-1176 (echo_entry)", "src/fiber/common/disciplined_fiber_scheduler_send_quiesce_request_to_all.c", "src/psock/epoll/psock_idle_fiber_entry.c"]}
{"id": "C66", "title": "The pictures that the mandelbrot example writes are valid and show the set", "statement": "Every file that the example writes is a valid plain PPM picture of the configured size, whose pixel in column i of line j has the brightness given by the number of iterations after which the orbit of the point that belongs to column i and line j in that frame's view leaves the circle of radius 2. The view starts as -2.5..1 by -1..1 around the configured centre and shrinks by 5% per frame around it. Frames have distinct file names that sort in the order of the frames.", "quantifier": "every width, height and frame number, every centre, every arithmetic for long double, every pixel; every number of threads and every schedule", "why_tests_cant": "A wrong sample appears only for some points at some zooms; there are thousands of frames with two million pixels each, and the rounding of long double depends on the platform.", "anchors": ["examples/mandelbrot/src/main.c:130-158", "examples/mandelbrot/src/main.c:190-242", "examples/mandelbrot/src/draw_line.c:75-130", "examples/mandelbrot/src/config_create.c"]}
{"id": "C67", "title": "The mandelbrot example gives back what it acquired and reports the first failure", "statement": "Whatever call fails while the example starts, draws or ends, it releases everything that it acquired, each once and in the reverse order, never something that it does not hold, and returns a code that tells which call failed; it returns 0 exactly if nothing failed, and then too has released everything. It always comes back.", "quantifier": "every combination of failures of allocations, thread, mutex and condition calls, in every frame, with any number of threads made before the failure", "why_tests_cant": "Each error path needs a failing allocation or pthread call at one place, and combinations with a failing release multiply them; none of them is reached by running the program.", "anchors": ["examples/mandelbrot/src/main.c:26-128", "examples/mandelbrot/src/main.c:160-190", "examples/mandelbrot/src/main.c:244-336", "examples/mandelbrot/src/config_create.c", "examples/mandelbrot/src/config_get_values.c"]}
{"id": "C68", "title": "The echo server gives back what it acquired and its exit status tells whether it failed", "statement": "Whatever call fails while the echo server starts, or however its loop ends, everything it acquired (fibers, contexts, the pair of sockets, the signal thread, the scheduler, the allocator) is released exactly once; main returns the status of what failed, and success exactly if nothing failed; the exit status that the shell sees is zero exactly in that case.", "quantifier": "every combination of failures of the calls of the start, of the loop and of the releases", "why_tests_cant": "The paths need failures of allocation, of socketpair or of thread creation at one particular place; running the server takes none of them.", "anchors": ["examples/echo_server/src/main.c:113-277 (main)", "examples/echo_server/src/main.c:499-540 (management_fiber_add)", "examples/echo_server/src/main.c:653-773 (listen_fiber_add, listen_context_release)", "examples/echo_server/src/main.c:834-953 (signal_thread_create, signal_thread_context_release)"]}
{"id": "C69", "title": "A function written with the control macros undoes exactly what it did", "statement": "In a function that tries its steps with TRY_OR_FAIL, each failing to a label behind which the steps before it are undone with CLEANUP_OR_CASCADE, the steps run in order up to the first that fails; exactly the steps before it are undone, in the reverse order, even if some of these cleanups fail; and the function returns success exactly if nothing failed, otherwise the status of the last cleanup that failed or else that of the step. The macros can be used wherever a statement can.", "quantifier": "every number of steps, every result of every step and cleanup, constructors that keep what they made as well as functions that undo it in any case; every place where a statement can be", "why_tests_cant": "The tests expand each macro once, at the top of a block and with one result; they do not show what a ladder of n steps does when a step and some cleanups fail.", "anchors": ["include/rcpr/control.h:26-54", "include/rcpr/macro_tricks.h:12-16"]}
{"id": "C70", "title": "Values exchanged over a connection come out unchanged, in whatever pieces the bytes travel", "statement": "If one end of a connection writes a sequence of values with the boxed writers and the other reads values of the same types from what arrives, every write and read succeeds and the values read are the values written, in order, also in conversations of any number of turns in both directions; the sockets are asynchronous ones, plain descriptors, or buffered readers of these.", "quantifier": "all sequences of valid values and turns, all ways the kernel cuts the transfers up on both sides, calls that would block any number of times, events that are not the socket's while waiting", "why_tests_cant": "Tests exchange a few values over a local socket pair, where transfers are never cut within a value and all bytes are there when they are read.", "anchors": ["src/psock/psock_wrap_async_read.c:38-116", "src/psock/psock_wrap_async_write.c:39-106", "src/psock/psock_from_descriptor_read.c:32-68", "src/psock/psock_from_descriptor_write.c:32-67", "src/psock/psock_br_fill.c:28-88", "src/psock/psock_read_boxed_*.c", "src/psock/psock_write_boxed_*.c"]}
{"id": "C71", "title": "The names a program imports stand for the library's functions, and imports do not clash", "statement": "In a file whose imports compile, calling a name declared by RCPR_IMPORT_<header> or RCPR_IMPORT_<header>_as(prefix) calls the library function of that name with the same arguments in the same order and has its result, for variadic functions with all further arguments; an imported type name is the library's type. Every public function can be imported, with the type and the must-check mark it is declared with, and the library defines it. All headers can be imported together, under one or several prefixes. Symbols of different versions never coincide, and no imported name is a library symbol.", "quantifier": "all headers, all orders, prefixes and repetitions of imports, all declarations the file already has, all argument values and numbers, all version numbers", "why_tests_cant": "A test calls the names it imports, with the headers and the prefix it uses; whether other sets of headers and prefixes clash, whether functions no test calls exist, and whether another version's symbols are disjoint shows in no run.", "anchors": ["include/rcpr/function_decl.h:32-51", "config.h.cmake:12-14", "include/rcpr/*.h: __INTERNAL_RCPR_IMPORT_*_sym", "include/rcpr/string.h:555-621", "src/fiber/platform/sysv/x86_64/fiber_make.s:23", "CMakeLists.txt:3-80"]}
{"id": "C72", "title": "A scheduler with the user's own callback switches exactly as the callback says", "statement": "With a scheduler made by fiber_scheduler_create, each call of fiber_scheduler_add, _yield, _run and each return of a fiber's function asks the user's callback once, with its context, the fiber that really runs, the event and the parameter. If the callback fails, the call fails with its status and nothing is switched. Otherwise exactly the fiber it names goes on: one that has not begun begins, one in a yield sees its call return with the discipline id (by default the internal one), event and parameter answered, one in an add sees it succeed. fiber_state_get and fiber_scheduler_from_fiber_get report accordingly. Creation tells the callback of the main fiber once and demands that it be resumed with the main event, or undoes everything; release tells it once. With several schedulers in a thread, no fiber's execution is ever in two places, and none is lost.", "quantifier": "all callbacks, all sequences of calls by whatever runs, all fibers created and released on the way, all statuses of allocations and reclaims, any number of schedulers", "why_tests_cant": "A test runs one callback and a few switches; whether the yielding fiber and the resume values are right for every policy and history, nested schedulers included, is a property of all of them.", "anchors": ["include/rcpr/fiber.h:108-175", "src/fiber/common/fiber_scheduler_create.c", "src/fiber/common/fiber_scheduler_add.c", "src/fiber/common/fiber_scheduler_yield.c", "src/fiber/common/fiber_scheduler_run.c", "src/fiber/common/fiber_entry.c", "src/fiber/common/fiber_scheduler_resource_release.c", "src/fiber/platform/sysv/x86_64/fiber_switch.s"]}
{"id": "C73", "title": "On a scheduler with disciplines, the fiber that is let run is the one whose code runs", "statement": "On a scheduler made by fiber_scheduler_create_with_disciplines, every call that may let another fiber run either returns its error in the fiber that made it, or stays where it is while exactly the fiber that the scheduler chose goes on from where its own code was left: its function begins, its addition of a fiber returns, or its own earlier yield returns with the discipline, event and parameter it was made ready with. The code that runs is always that of the fiber which the scheduler holds for the running one, and fiber_state_get agrees with the scheduler.", "quantifier": "all disciplines and their code, all histories of creations, additions, yields, management requests, returns and releases of fibers, all failures of allocations and reclaims, all trees for the table of fibers", "why_tests_cant": "The bookkeeping of the ready queue and the switching of stacks are separate code with separate copies of who runs; that they agree after every history of switches and failures cannot be seen from some of them.", "anchors": ["src/fiber/common/fiber_scheduler_create_with_disciplines.c", "src/fiber/common/fiber_scheduler_yield.c", "src/fiber/common/fiber_scheduler_add.c", "src/fiber/common/fiber_entry.c", "src/fiber/common/fiber_discipline_yield.c", "src/fiber/platform/sysv/x86_64/fiber_switch.s"]}
{"id": "C74", "title": "Commands sent as lines are read and split into the same words", "statement": "If one end of a connection sends commands as lines of text, one psock_write_raw_data for each, and the other reads them with psock_br_read_line into buffers with room for them and splits them with words, then every line is read whole, with its size and terminated, the iterator finds exactly the words of the command in their order, nothing beyond the line is changed in the buffers, and what was sent after the commands is still to be read.", "quantifier": "all sequences of commands with any words and white space, all buffers, all ways in which the kernel cuts the bytes up on either end, all waits of an asynchronous sender", "why_tests_cant": "Where lines, pieces and the reader's buffer meet differs with every schedule of the kernel; the combinations of boundaries of words, lines, pieces and buffers are unbounded.", "anchors": ["src/psock/psock_write_raw_data.c", "src/psock/psock_br_read_line.c", "src/psock/psock_br_fill.c", "src/string/words.c"]}
{"id": "C75", "title": "Calls fail only with the status codes that their documentation lists", "statement": "If the header of a function lists the status codes that it returns, then in an environment in which allocations succeed or report that memory is out, and reclaims succeed, a call of it returns STATUS_SUCCESS or one of those codes, and nothing else; a caller that handles every documented code handles every outcome.", "quantifier": "all fifty functions of the model whose documentation lists their codes, all arguments and states in which the call is defined, all outcomes of allocations and of the kernel's and the thread library's calls", "why_tests_cant": "A test sees the codes of the failures that it provokes; that no other code is returned from any path, with any state and any failure of what lies below, is a statement about all of them.", "anchors": ["include/rcpr/allocator.h", "include/rcpr/slist.h", "include/rcpr/list.h", "include/rcpr/queue.h", "include/rcpr/rbtree.h", "include/rcpr/fiber.h", "include/rcpr/thread.h", "include/rcpr/psock.h", "include/rcpr/uuid.h", "include/rcpr/string.h"]}
{"id": "C76", "title": "After a failed call the variable given for the result holds what the documentation says", "statement": "If a function fails whose header says that on failure the variable given for its result is set to NULL, the variable is NULL after the call whatever it held before, and if the header says that it is unchanged, it holds what it held before; so a caller can tell from the variable what there is to release, and data read into by a failed call is as it was.", "quantifier": "all functions whose headers say what is in the variable after a failure, all contents of it before the call, all arguments, states and failures of what lies below", "why_tests_cant": "Tests start from a variable set to NULL and provoke a few failures; what every failing path leaves in it, from any earlier content, is not seen by them.", "anchors": ["include/rcpr/allocator.h", "include/rcpr/thread.h", "include/rcpr/fiber.h", "include/rcpr/psock.h", "include/rcpr/uuid.h", "include/rcpr/rbtree.h", "src/platform/pthread/thread/thread_create.c", "src/psock/psock_create_from_descriptor.c", "src/uuid/rcpr_uuid_parse_string.c", "src/rbtree/rbtree_delete.c"]}
{"id": "C77", "title": "A release gives back everything and says so, or the resource still belongs to the caller", "statement": "resource_release gives back every block of memory, mapping, descriptor, thread object and owned resource that belongs to the resource, and nothing else, and returns success; if something cannot be given back it returns an error and the resource still belongs to the caller, who can release it again.", "quantifier": "all resources of the library except allocators, nested in any way, and all patterns of failure of the reclaims, munmap, close, pthread calls and user release functions below", "why_tests_cant": "Tests release with an allocator that never fails; which of the calls on the way fails, at which depth of which nesting, is beyond enumeration.", "anchors": ["include/rcpr/resource.h", "src/resource/resource_release.c", "src/fiber/common/fiber_resource_release.c", "src/stack/stack_create.c", "src/rbtree/rbtree_create.c", "src/slist/slist_clear.c", "src/list/list_clear.c", "src/queue/queue_create.c", "src/message/message_create.c", "src/condition/condition_barrier_create.c", "src/psock/psock_from_buffer_release.c", "src/psock/psock_br_release.c", "src/platform/pthread/thread/thread_create.c"]}
