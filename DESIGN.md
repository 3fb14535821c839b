# Formal model of nanolith/rcpr in Rocq (Coq 8.16.1)

This file states what is modelled, how, what is trusted, and how each property
of `properties.jsonl` is proved.  (Written before the proofs; updated with them.)

## Approach

* The code is C.  Every modelled function is a total Gallina function with a
  comment giving the file and lines it models.  Undefined behaviour (NULL or
  dangling dereference, double free, out-of-bounds access) is a *distinct
  outcome* (`None`/`UB`), never silently given a value.  Loops are either
  structural recursion over the data they walk, or take fuel and have a distinct
  out-of-fuel outcome that the theorems exclude.
* Machine arithmetic that matters (`size_t`, `uint32_t`, `int`, `char`) is written
  explicitly with `mod 2^n`.
* The environment (allocation success/failure, transport chunking, readiness,
  user callbacks, child release status) is an explicit oracle argument that the
  theorems quantify over.
* Specifications are separate definitions over plain mathematical objects (lists,
  numbers, finite maps), so that a theorem can be read without the model's helpers.
* Where the English property is false of the code, the model is kept faithful and
  the negation is proved with a concrete witness (`..._refuted`); the true part is
  proved beside it (`..._partial`).

## Trusted base

* Coq 8.16.1's kernel, including `vm_compute` for closed witnesses and examples.
* The transcription from C and assembler to Gallina, function by function, as cited in
  the comment of every definition.
* The models of what the code calls: the C library (`memcpy`, `strlen`, `malloc`), the
  system calls, pthreads and the compiler's calling convention.  Their results are
  arguments that the theorems quantify over; where a result has to be constrained (an
  address that `malloc` returns is not in use, a descriptor that `socket` returns is not
  open, `read` returns at most what was asked) the constraint is a named hypothesis and
  part of the statement.
* Nothing else.  `Print Assumptions` is called for every theorem of the Prop files, at
  their ends; each prints "Closed under the global context".  No axiom is used, not even
  one of the standard library.  (A checker that lists every axiom of every loaded file sees
  seven names `Coq.ssr.ssrunder.Under_rel.*`: they are the parameters of a module type of
  the standard library that is loaded with `lia`; no theorem depends on them.)

## How the files are organised

For each part of the code there are: `XModel.v` (the code), `XSpec.v` (what it should do, in
terms that do not mention the model where possible), `XProofs.v` (and further proof files)
and `PropX.v` (the theorems `Cnn_...` of MANIFEST.json, with examples that meet their
hypotheses).  A theorem `Cnn_..._partial` proves part of property Cnn, or proves it under a
restriction that is stated in it; `Cnn_..._refuted` proves that the full claim is false of
the code.  `tools/` has the scripts that write MANIFEST.json and test the theorems against
wrong programs; `seeded/LOG.jsonl` is the log of those tests.

## What is modelled

| code | model | how, and what is simplified |
|---|---|---|
| `src/string`, `include/rcpr/string.h` | StringModel | byte memory with bounds; all functions |
| `src/uuid` | UuidModel | bytes and characters; `snprintf`/`isxdigit` by their C definitions |
| `status.h`, `component.h` and all status constants | Status, PropStatus | numbers |
| `RCPR_SYM`, the import macros and prototypes of `include/rcpr/*.h` | ImpModel, ImpTable | macros expanded to names, parameters and the call in the body; ImpTable.v is written from the headers by `tools/imports.py`, which is trusted to read them right; types are text; the internal import macros of `src` are not modelled |
| `src/bigint`, `src/auto_reset_trigger` | BigintModel, TriggerModel | trigger callbacks are arbitrary programs of trigger calls |
| `src/allocator` | AllocModel | bump allocator with 64-bit wrap-around; malloc allocator over a block table |
| `src/socket_utilities` | CodecModel (byte order), FdModel | descriptor table with the kernel's answers |
| `src/psock`: raw and boxed readers and writers, `*_block` | CodecModel | over any transport; in-memory sockets as an instance |
| `src/psock`: in-memory sockets | MemModel | heap of blocks, allocation and reclaim results per call |
| `src/psock`: descriptor sockets, async wrapper, methods | AsyncModel | scripted kernel (what each call finds) and scripted yields |
| `src/psock`: buffered reader | BrModel, BrInst | over any socket with a stream |
| `src/psock/platform/poll`, `epoll` | IoModel, IoRoom, IoRound | handlers and idle fiber as a discipline of the scheduler |
| `src/psock/platform/kqueue` | KqModel, KqProofs, KqHist | as above; kevent(2) itself is modelled as FreeBSD's manual describes it: changes, refusals, one-shot events |
| `src/slist`, `src/list`, `src/queue` | ListModel | explicit heap with nodes, heads and tails, parents; allocation, release and reclaim results |
| `src/rbtree` | RbModel, RbSteps | explicit heap with the shared sentinel; rotations, fixups, iteration |
| `src/fiber/common` | SchedModel | run queue, registry, callbacks, quiesce and terminate; fibers are opaque IDs driven by an arbitrary history |
| `src/fiber/common`, schedulers with the user's callback | UsrModel | any number of schedulers in a thread; callbacks are any functions of their arguments that answer and release fibers but call no function of the library; fibers' functions are arbitrary sequences of calls; a fiber's stack is what it resumes (C44) |
| `src/fiber/common`, schedulers with disciplines on real stacks | TurnModel | the scheduler of SchedModel is the context of a callback of UsrModel; fibers' structures are in both, and kept equal where the code that switches writes them |
| `src/fiber/platform/sysv/x86_64/*.s` | AsmModel | registers and memory, instruction by instruction |
| `src/message`, `src/condition` | MsgModel, CondModel | callback handlers on top of SchedModel; the tree of mailboxes is any tree meeting its specification, or the one of RbModel (TabModel, TabRb) |
| `src/platform/pthread/thread` | ThreadModel | free interleaving of any number of threads |
| constructors and releases of stacks, fibers, schedulers, disciplines, mailboxes, conditions, wrapped sockets | OwnModel | heap of owning structs, an allocation result per allocation |
| the calls of `src/message`, `src/condition` and `*_block` once they are resumed; unexpected-event handlers | EventModel | the result functions of the other models, with the discipline that resumed the fiber; handlers are any functions |
| `src/psock`: constructors, releases and vtables of sockets, user methods, passing of descriptors | SockModel | descriptor table, heap of sockets, log of system calls, an answer per call |
| `include/rcpr/vtable.h`, `src/resource`, calls through the tables of allocators and sockets | VtModel | memory of typed words, address of the section of tables, build options |
| `include/rcpr/control.h`, `macro_tricks.h` | CtlModel | expansion to C statements with labels and jumps; the results of the expressions are answers |
| the stores to the variables that callers give for results | OutModel | where the store stands in each function, over the models of the functions |
| the release functions of all resources but allocators, when giving back may fail | RelModel | a heap of typed structs with the pointers that matter; each release function is a list of steps and a rule for which error is returned; each call that gives back takes its answer from the environment |
| `examples/echo_server`: `echo_entry` | EchoModel | over AsyncModel's sockets, waits and interruptions scripted |
| `examples/echo_server`: `dispatch`, `dispatch_context_release`, socket and loop body of `listen_entry` | DispModel | over SockModel; results of allocations, of `fiber_create` and `fiber_scheduler_add` per call; a fiber's end is an event |
| `examples/echo_server`: `main` up to the end of its loop, `fiber_manager_entry`, `listen_entry`, `listen_fiber_unexpected_handler`, `echo_entry`, `signal_thread_entry` as fibers of one scheduler | ServModel | over SchedModel and IoModel (epoll); a step is a fiber's run to its next library call; bytes, memory exhaustion and the cleanup behind main's loop are not modelled; a message arrives whole |
| `examples/mandelbrot`: `main` up to cleanup, `draw_line` | MandModel | over ThreadModel; a step is a thread's run from one blocking call to the next, results of the calls per step; a line's pixels are the numbers of its frame and line |
| `examples/mandelbrot`: views, pixels, files, names, printing | ImgModel | over any arithmetic for `long double`; the order of its operations is the code's |
| `examples/mandelbrot`: start and cleanup of `main`, `config_*`; `examples/echo_server`: start and cleanup of `main`, `management_fiber_add`, `listen_fiber_add`, `signal_thread_create`, releases of contexts | ExitModel | an answer per call; a log of what is acquired and released; what happens in between is an answer |

Not modelled: `include/rcpr/model/*` (CBMC shadow models); the internal import macros of `src`; the C++ of `models/` and `test/`; data races outside the pthread
wrappers; the contents of `struct sockaddr` and `msghdr`, which the library passes through.

## Plan per property

| property | modelled | proof |
|---|---|---|
| C01-C05 strings | `src/string/*` over NUL-terminated byte memory | induction on the string |
| C06 uuid | `src/uuid/*` | per-nibble lemma, induction on the group layout |
| C07 byte order | `hton/ntoh`, byteswap | arithmetic on byte decompositions |
| C08-C11 codec | raw/boxed readers and writers over an abstract transport and over the in-memory psock | induction on the value sequence / transfer loop |
| C12-C14 in-memory psock | `psock_from_buffer_*` with allocation oracle | invariant over write histories; refutation by witness for C13 |
| C15-C16 async psock | `psock_wrap_async_*`, `psock_read_raw`, `psock_br_fill` over a scripted kernel | induction on the script; refutation for C16 |
| C17-C20 buffered reader | `psock_br_*` | invariant over call histories; refutations for C19, C20 |
| C21-C22 bump allocator | `bump_allocator_*` with 64-bit wrap-around | invariant over histories; refutation for huge sizes |
| C23-C27 lists, queue | `src/slist`, `src/list`, `src/queue` over an explicit heap | representation predicate, refinement to sequences; refutations for C26, C27 |
| C28-C31 red-black tree | `src/rbtree` over an explicit heap with the sentinel node | heap represents a tree; refinement of every rotation and of the loops after insertion and deletion; refutations for C30, C31 |
| C32 bigint, C33 trigger | `src/bigint`, `src/auto_reset_trigger` | direct / history invariant |
| C34 descriptors | fd table model | induction on the request list; refutation |
| C35-C38 scheduler | run queue, dispatch table, management discipline | history invariants; refutations |
| C39-C43 message/condition | callback handlers over the scheduler model | refinement to FIFO channels; refutations |
| C44 switch | x86-64 assembly over a register/memory model | symbolic execution |
| C45 readiness | poll/epoll idle fiber + wait handlers | refutations, partial liveness |
| C46 status codes | `status.h`, `component.h` | arithmetic |
| C47 threads | pthread wrappers over an abstract pthread oracle | case analysis |
| C48 constructors | all constructors over an allocation oracle | case analysis per constructor |
| C49 malloc allocator, C50 descriptors | `malloc_allocator_*`, `socket_utility_*` | block table, descriptor table; refutations |
| C51, C52 raw reads, optional methods | `psock_read_raw*`, `psock_accept/sendmsg/recvmsg/setsockopt` | case analysis, induction on the script |
| C53, C54 management, registration | scheduler model | history invariants; refutations |
| C55 messages, C56 conditions of threads | MsgModel, ThreadModel | history invariants over interleavings |
| C57 descriptors of sockets, C58 what serves a method | SockModel | invariant over histories, exact result of each function; inductive relation of what serves a call; refutations |
| C59 own outcomes | EventModel, MsgModel, CondModel | invariant over histories: where each fiber is and what it waits for; exact trace of the handler; refutations by histories |
| C60 kqueue | KqModel over IoModel and the scheduler | refinement to KqSpec over histories; draining by induction on rounds; refutations by histories |
| C61 function tables | VtModel | by cases over requests, for any memory; refutations for any forged table |
| C62 echo server's connection | EchoModel over AsyncModel | exact effect of one round, induction over rounds with a decreasing measure; exact runs for bursts and for a peer that closed; refutation |
| C63 echo server's descriptors | DispModel over SockModel | invariant over histories of connections; exact result of each failure; refutations for every world |
| C64 mandelbrot's frames | MandModel over ThreadModel | invariants over all schedules (with failures; without), decreasing measure for the bound, enabledness for progress; refutations for every configuration |
| C65 echo server's shutdown | ServModel over SchedModel and IoModel | invariant over all states (where each fiber is, whose socket is whose, what is queued), refined through the scheduler's specification; decreasing measure for the bound; refutations by histories |
| C66 mandelbrot's pictures | ImgModel, composed with MandModel | parser of the file as specification; induction over pixels, lines, digits; refutation for every bright pixel and by computation for the default configuration |
| C67, C68 start and end of the examples | ExitModel | replay of the log as specification; by cases over answers, induction over threads and frames; refutations for all answers of a kind |
| C69 control macros | CtlModel | induction over the steps and the cleanups; refutations for all states |
| C70 exchange of values | CodecModel, AsyncModel, BrModel | transports that serve every blocking read are closed under the codec; induction over the turns; refutations for all states |
| C71 import macros | ImpModel, ImpTable | a general lemma about wrappers of the right form, applied to the table by computation; identifiers that are cut at the first underscore; refutations for all files |
| C72 own callbacks | UsrModel | simulation of an automaton of phases over all histories, the callback any function; permutation of the saved executions for any number of schedulers; refutations by histories |
| C73 turns | TurnModel, SchedModel, UsrModel | simulation over all histories: the scheduler's running fiber, states and answers against what the saved stacks make run; composed with C35 |
| C74 text | StringModel, CodecModel, AsyncModel, BrModel | composition of the write loop, C18's lines and C04's words, by induction over commands |
| C75 documented codes | all models of functions whose headers list their codes | DocSpec holds the headers' lists and what calls of the models return; case analysis of every path one way, a call for each code the other way |
| C76 results of failures | the stores to the caller's variable (OutModel) over the other models | OutSpec holds the headers' promises; case analysis of every failing path, and a failing call of each function from any variable |
| C77 failed releases | the release functions over a heap of structs (RelModel) | RelSpec says what belongs to a resource; induction on the nesting for every pattern of failures; what a second release does, by cases |

## Findings

Places where the code does not do what its documentation or a reader's expectation says.
Each is a theorem `..._refuted` or part of the statement named.

* `string_split` never finds a delimiter byte of 128 to 255 that is passed as a positive int (C01).
* A boxed string or byte array of length 0 at the very end of an in-memory socket is read as
  end of file (C08); lengths of 2^32 and more are written truncated (C10).
* A failed write to an in-memory socket may leave part of the data in the output (C13).
* `psock_read_raw` on an asynchronous socket drops the bytes before the end of the stream;
  fixed-size reads through a buffered reader never deliver a buffered tail (C16).
* The echo server drops what it reads together with the end of the stream: a client that sends a
  line and closes gets nothing back (C62, by C16).
* The echo server closes an accepted descriptor twice if it has no memory for the connection's
  context or cannot add its fiber to the scheduler, and uses a null pointer if it cannot create
  the fiber or wrap the socket (C63).
* The echo server resumes a released fiber if a connection's socket is ready in the same round as
  the signal; a connection accepted in that round is neither told nor closed at the first message,
  and one accepted with the second is left open; the listener misses the first message if it has not
  run yet.  Connections have no handler for unexpected events, so the first message, meant to let
  them finish, cuts them off (C65).
* The mandelbrot example never writes a file if the main thread gets the lock before a worker
  waits: the workers wait without looking at `done`.  It does not look at `done` after its own
  wait either, so a wake-up without a signal makes it read an array that was never set, or write
  a frame with lines missing.  It hangs for a frame of no lines, and when its signal or wait
  fails, because it then locks the mutex that it holds.  Workers do not check `malloc` (C64).
* The mandelbrot example's lines are arrays of `char`, printed with `%u`: where `char` is signed, a
  brightness of 128 or more is written as a number near 2^32, and the file is no valid picture.
  This happens in the first frame of the default configuration.  Neither `fopen` nor the copy of
  the prefix is checked (C66, C67).
* The mandelbrot example releases null pointers if it cannot make one of its threads; if all goes
  well it releases nothing but the prefix and the allocator; the struct of its configuration is never
  reclaimed; the codes 90 to 96 cannot occur (C67).
* The echo server leaks the listener's context if the signal thread cannot be started, and always
  the signal thread's context and both sockets of the pair; its exit status is 0 when it runs out of
  memory or a read fails, because statuses are cut to eight bits (C68).
* `TRY_OR_FAIL` and `CLEANUP_OR_CASCADE` are not single statements: under an `if` without braces
  the check is made even if the operation is not, on an older or uninitialised status (C69).
* `psock_read_line` reports an interrupted line as a complete one and is in error from then
  on; whether a line that fits the buffer to the byte is complete depends on how the bytes
  arrived (C18, C19).
* `psock_br_create_from_psock` reports success when its buffer cannot be allocated (C20).
* The bump allocator hands out its own header for a request near 2^64 (C21), refuses a request
  that would fit exactly, and leaves the pointer unchanged on failure (C22).
* `slist`/`list` clear stops at the first element that cannot be released, leaks its node and
  leaves stale head/tail pointers (C26); nodes keep the parent from before a swap (C27); a pop
  hides a failing node reclaim (C23).
* `rbtree` deletion rebalances wrongly and drops the whole tree whenever the loop starts at an
  only child of the root (C30); swapped trees share
  each other's sentinel and depend on each other's lifetime (C31).
* A trigger callback that calls `auto_reset_trigger_step` is run twice (C33).
* `socket_utility_setfds` closes a descriptor moved onto itself and loses one of an exchange
  (C34); `socket_utility_close_other_fds` leaves descriptors of 1024 and more (C50).
* Scheduler: the fiber that adds another and `set_next` jump the queue; an allocation failure
  in `add` leaves a fiber added or queued twice (C35); yielding with the event one past the
  last reads past the table (C36); quiescing a ready fiber loses its event and resumes it twice
  (C37).
* `fiber_scheduler_create_with_disciplines` tests the wrong variable: it returns success and no
  scheduler for six of its failure points, uses a null pointer or releases a discipline twice
  for three, leaks its context for four and after every release (C38).
* Messages are lost when resuming the receiver runs out of memory; a send that reports failure
  is delivered (C39); closing mailboxes can make others unreachable (C40, by C30); creation
  without memory for the tree node reports success (C41); closing does not wake the blocked
  fibers (C42); a notification without memory loses its waiter (C43).
* The code meant to end the process when a fiber's entry function returns faults (C44).
* I/O waits: with epoll another fiber's return cancels a wait on the same socket; error-only
  conditions do not resume the fiber; with poll a signal ends the idle fiber (C45).
* kqueue: a signal ends the idle fiber; if memory runs out as a fiber is made ready, it and those
  after it are never resumed; if the kernel refuses an event as the array of 1024 waits is full,
  the waits of up to 1023 other fibers are lost; a fiber whose wait something else ended is later
  resumed by the event it no longer waits for, even one of another socket with the same
  descriptor (C60).
* The check of function tables is an assertion by default, and gone with NDEBUG; it accepts the
  address after the section and any place within it; tables of user methods are not checked (C61).
* A failing join frees the thread's struct under the running thread (C47); `thread_cond_signal_*`
  return errno (C56).
* Disciplines that are made on demand stay registered after they are released when the
  scheduler's arrays cannot grow (C48, C54); without memory for the idle fiber the discipline
  stays without one (C48).
* `realloc(p, 0)` leaves the caller with a dangling pointer where the C library frees (C49).
* `psock_read_raw_descriptor` has room for two descriptors and takes one; a sender can leak
  descriptors into the receiver (C57).
* `psock_create_from_hostname_and_port` silently uses the port modulo 65536 (C57).
* The socket type of a buffered socket is 0, which is not a socket type (C57).
* `setsockopt` of a user's socket is never called, and asynchronous and buffered sockets
  refuse it; a user's table without `read` or `write` is accepted (C58).
* `message_*`, `mailbox_*` and `conditional_*` do not check which discipline resumed their fiber.
  A wait that a quiesce or terminate request ends stays registered: the next message to that
  mailbox ends whatever the fiber waits for then, for instance `conditional_wait` with the address
  of the message as its status, and the message is lost; receiving again is refused (C59).
* Values read through a buffered reader of an asynchronous socket are lost if they arrive together
  with the close, and the reader does not wait for those that have not arrived; over a plain
  descriptor a short transfer within a value leaves the two ends out of step (C70).
* Twenty-two public functions are declared and imported but defined nowhere in `src`, so a call does
  not link: `bigint_modulus_int`, `bigint_divide_int` and twenty validity predicates; `strcatv` is
  defined by its import only.  The import of `resource_release` is not marked as to be checked, that
  of `bigint_modulus_int` drops a `const`, `vsocket_utility_move_descriptors` and
  `vsocket_utility_setfds` have no import, and `RCPR_IMPORT_string` declares `strdup`, which clashes
  with the C library's `string.h`.  The assembly sources spell out version 0.4 in their symbols (C71).
* `fiber_scheduler_create` leaves the caller's pointer as it was when it fails, though NULL is
  documented.  A failing callback does not end the process, as documented: the call fails and the
  fiber goes on; but if it fails when told of a fiber's end, or ever resumes that fiber, the process
  dies in the assembly's `finish`.  A callback cannot release a fiber when told that it has ended,
  as its context is saved after that.  A fiber made for one scheduler and added to another tells
  the first one's callback of its end, as the first one's current fiber (C72).
* A fiber that is running and ready at once (it woke itself, or added a fiber) is released by the
  scheduler if the reclaim of its queue entry fails, and goes on on the released stack; and a fiber whose
  addition of another failed late stays ready, so that it is resumed after its function returned (C73).
* A line that fills its buffer exactly is read or reported as truncated depending on whether its newline came with
  it; in the latter case the next line read is empty, and commands get out of step (C74).
- Eight of the fifty functions whose headers list their codes return others: bump reallocation
  (ERROR_GENERAL_REALLOCATION_NOT_SUPPORTED, where allocator.h:301 names a code that is not defined),
  fiber_scheduler_discipline_add (..._ALREADY_OWNED), the constructors of threads, mutexes and condition variables,
  thread_mutex_lock_acquire and thread_cond_wait (their documentation knows no failure), and
  psock_create_from_listen_address.  Signalling a condition variable returns pthread's error number, which is no
  status code; psock_create_wrap_async, fiber_scheduler_create, psock_read_block and psock_write_block hand on
  what they are given.  rbtree_insert adds a second resource with an equal key, where rbtree.h:100 promises
  ERROR_RBTREE_DUPLICATE, which is defined nowhere (C75).
- Twenty-three of the thirty-two functions that promise to set the caller's variable to NULL on failure do not touch it,
  so that a variable that was used before still points to what it pointed to; rcpr_uuid_parse_string changes the UUID
  before it refuses a text, psock_read_raw stores bytes and fails, and rbtree_delete leaves the variable alone if the key
  is not found and stores the resource if the node cannot be reclaimed (C76).
- A release that fails cannot be repeated, against resource.h:65-68, but for lists, locks, stacks and single blocks: the
  others clear the struct first or give it back although a part is left, so that the part is lost, e.g. the mapped
  memory of a fiber's stack.  A failing close is reported as success, and releasing a thread that returned an error
  reports that error although all was given back.  Releasing a condition on which a fiber waits releases that fiber
  if the node of the wait list cannot be reclaimed; releasing a scheduler releases a fiber of its run queue twice if
  that fiber's node cannot be reclaimed (C77).
* An unexpected event during a wait on a socket goes to the handler of the fiber for which the
  socket was wrapped, even if another fiber waits (C59).
