# Formal model of libiris: design

## 1. What is verified

The project is a sandboxing library in Rust. A *broker* process starts a
*worker* process with few rights; the worker's trapped system calls are sent to
the broker over a socket, checked against a path allow-list (the *policy*) and
executed by the broker if allowed.

The development in `rocq/theories/` is a hand-written functional model of the
Rust code, function by function. Each model definition has a comment with the
file and lines in `/repo` it models and the simplifications made. Nothing is
extracted from, or linked to, the Rust code automatically: the correspondence
is by reading.

## 2. Trusted base

* Coq 8.16.1's kernel (checked again with `coqchk`).
* The axioms listed by `Print Assumptions` under each property theorem.
  See section 6.
* The hand translation from Rust to Gallina, as documented by the comments.
* The models of parts that are not in the repository:
  * the Linux kernel: `open` flag meaning, descriptor tables, `dup`, `close`,
    `SCM_RIGHTS` message rules, `SOCK_SEQPACKET` framing, classic BPF, seccomp
    data layout, `execve` closing close-on-exec descriptors;
  * postcard 1.x's wire format (varint, zigzag, length-prefixed strings);
  * Rust's `str` splitting, UTF-8 checking, `from_utf8_lossy`, integer casts;
  * the meaning of libseccomp rules (a call is allowed when one rule matches);
  * the used x86 instructions and their encodings;
  * the used NT structures and Windows' command line splitting.
  Results of OS calls are inputs of the model (arguments or oracles), so the
  theorems hold for every OS answer of the modelled shape.

## 3. Conventions

* `XModel.v`: total, computable definitions that follow the code.
* `XSpec.v`: independent vocabulary used to state properties.
* `XProofs.v`: lemmas.
* `XProps.v`: property theorems (`exact lemma`), a concrete `Example` for each,
  and `Print Assumptions`.
* A Rust panic is an explicit result value, never a default.
* Strings are lists of bytes. Rust separators are ASCII, so byte-wise splitting
  is the same as char-wise splitting.
* Integers are `Z` or `N` with explicit wrap-around where the code wraps.
* A property that is false for the code has a theorem `..._refuted` with a
  witness. If a weaker claim holds it is proved as `..._partial`, beside the
  full statement.

## 4. Plan per property

| Id | Model | Proof |
|---|---|---|
| C01-C11 | `Policy` struct with finite maps, all `allow_*` functions, `strip_one_component`, `path_is_sane`, `check_file_open`; the rule history is a list of API calls | The verdict is characterised by a specification over component lists and the rule history; induction over the history for the maps, over the components for the walk. C10 is refuted (the root rule grants nothing). |
| C12-C14 | `evaluate_request`, `log_verdict`, `get_runtime_policy`; callbacks are abstract ids, calls are a trace | Direct, plus C02. |
| C15 | `allow_inherit_handle` with a kernel answer per handle | Induction over calls. |
| C16 | postcard encoding of the two access maps and flags for any enumeration order | Round-trip lemmas for varint, string, map; induction over the entry list. |
| C17-C19 | postcard encoder and decoder for all messages, UTF-8 validation, `to_slice` limit, datagram truncation | Structural round trip; decoder lemma by induction over fuel-free byte lists. |
| C20-C21 | `cmsghdr` layout per word size, kernel's `SCM_RIGHTS` send and receive rules, `send`, `recv` | Arithmetic. C20 refuted on 64-bit (descriptor 0 is also sent), proved on 32-bit. C21 refuted on 64-bit. |
| C22 | Linux `Handle` operations over a descriptor table | Invariant over operation sequences; clone inheritability refuted. |
| C23-C30 | `proxied_open_file`, `proxied_syscall`, handshake and loop over a list of datagrams; effects are a trace | Induction over the datagram list. C29 refuted (NUL byte). |
| C31-C33 | Small-step system: threads, mutex, two queues, broker | Inductive invariant; C32 refuted with nested traps, proved without; C33 refuted. |
| C34-C39 | Worker `sigsys_handler` dispatch and handlers, composed with the broker model | Case analysis and C02. C34, C35, C37 refuted in general with true parts proved. |
| C78-C80 | Same model: whole path of an intercepted open, mode and close-on-exec, bad pointers | C78 proved; C79 and C80 refuted. |
| C40-C41 | Straight-line machine for the trampoline instructions with their encodings | Symbolic execution for arbitrary register contents. |
| C42-C43 | Classic BPF interpreter, instruction encoding, byte patching loop | Simulation of the first five instructions; list surgery. C43 needs a side condition; refuted without it. |
| C44-C46 | Rule table as data with libseccomp meaning; filter failure path | Bit reasoning and evaluation of the finite table. C45, C46 refuted. |
| C47-C51 | `clone_entrypoint` as a program over a process state (descriptor table, capability sets, namespaces) and a failure oracle | Induction over the descriptor listing; case analysis of failures. C49 refuted; C48 needs a side condition. |
| C52-C55, C60, C81 | `Worker::new` and `OSSandboxedProcess::new` over a broker state with failure oracle, composed with the entry point and the broker loop | Case analysis; C52 refuted for an interrupted read, C54 for two descriptors on x86_64, C55 refuted. |
| C56-C58 | `ProcessConfig` operations, decimal printing and parsing | Induction; C57 needs two open standard streams in the broker, C58 refuted. |
| C59 | `StackBuffer` | Induction over writes. |
| C61-C69 | Windows policy, path derivation, brokered calls, handle clone, channel | Same method as Linux; C62, C64, C65, C66, C67, C68, C69 contain refuted parts. |
| C82 | Texts of refusals, Linux and Windows | Exact words from rights asked and held; hexadecimal printing. Refuted for registry masks with notify, view, read-security or synchronise bits. |
| C83-C84 | Windows policy | Consequences of C61; both contain refuted parts. |
| C85-C87 | Windows broker thread over a list of pipe reads, with the broker's handle table and an event trace; wire format | Induction over the reads, C61 and C65; round trips as on Linux. |
| C70-C73 | Process creation loop with OS oracle, environment block, command line | Measure on remaining options; C71, C72 refuted in general, true for plain entries and arguments. |
| C88-C92 | The same creation loop and its event trace | Facts about one pass, by stage; induction over passes. All refuted as stated, with partial theorems. |
| C93 | Loop of `IpcChannel::new` with an OS oracle for names | Induction on the number of used names; refuted when all are. |
| C74 | Bytes of both trampolines and an interpreter for the used instructions | Arithmetic modulo 2^64 over byte memories. |
| C94 | `hook_function`: search for a place, export and import tables of all modules, trampolines in memory | Induction over tables, modules and hooks; C74 for the trampolines. Refuted on 64 bits when nothing is free within 4 GiB above a module. |
| C95-C98 | The three hooks and `send_recv`, with a pipe as oracle | Composed with C87 and the broker's `exchange` of C86. All contain refuted parts. |
| C75-C77 | Error mapping, objects and ownership ledger of the C bindings; programs are lists of calls | Case analysis; induction over programs with an invariant on slots and owners. C76, C77 refuted, partial for well-behaved programs. |
| C99-C101 | The same programs; log callback conversions | Induction over programs, composed with C01 and C103. C100 refuted for paths with a NUL, C101 refuted. |
| C102, C103 | `Worker::new` with a policy built by the user | C47 and the broker loop composed with the creation model. C102 refuted for handles closed after they were accepted. |
| C104-C106 | Search for DLLs and change of their access control lists, with the lists as state and OS answers as functions of the trace | Invariant over all operations. C105 refuted (inherit-only and denying entries), partial without them; C106 refuted and the leaks counted. |
| C107-C108 | `WinWorldModel`: hooks at one end of the pipe, the broker's loop at the other, one message at a time | Per call from C95, C97 and the broker's step, then induction over the calls. C108 refuted by long names; partial up to 21800 units |
| C109-C112 | `WinStartModel`: Worker::new on Windows over a handle table; the named pipe with other processes acting | Case analysis of all ends of Worker::new (`worker_cases`), induction over workers. C109-C111 refuted, with what is missing as hypotheses |
| C113 | Bounds for the size of an encoded policy from below and above (`PolicySizeProps`) | Induction over the entries; refuted by one long path |
| C114-C115 | `IsolationModel`: the worker's namespaces, id maps, host name and mounts, and the host's | Closed form of `isolate`; both refuted, with what is missing as hypotheses; C114_process over `EntryModel`/`ProcessModel` |
| C116 | `WinPatchModel`: memory and page protections while hooking, tables read from memory | A relation kept by every step (`keeps`); refuted for tables that are not aligned, partial for aligned ones |
| C117 | `SignalModel`: kill, tgkill and owners of files under the filter's rules; the kernel's rules for signals are assumptions about Linux | Induction over the worker's deeds; refuted without a PID namespace, two partial theorems |
| C118 | `WinPatchModel` against `WinHookModel`: tables read from memory before and after | Simulation (`sim`) with a frame for every loop, then the proof of C94 |
| C119 | `ShareModel`: serving threads and the program take turns at system calls on one descriptor table; `C119_alone` relates one thread to `broker_step` | Invariant: what program and threads own is open and disjoint; refuted by a closed standard input (x86_64) and by the C interface's second close |
| C120 | `worker_new` (ProcessModel) and `ShareModel` | From C54 the exact set of descriptors without FD_CLOEXEC after the call; refuted for every worker; invariant on all entries of the table while workers run |
| C121 | `WinPathModel`: the two calls of GetFullPathNameW, UTF-16 and NUL termination; the OS's answers are arbitrary | Computation of the buffer; refuted by a NUL in the path and by a current directory that changes between the calls |
| C122 | `StartRaceModel`: the error pipe of Process::new with programs started by other threads at any of four moments | Same outcome as alone unless started between pipe and fcntl; refuted for every such start in between |
| C123 | `LargeFileModel`: the decision with the constants of i686, where O_LARGEFILE is a flag of its own | Bitwise: same verdict as on x86_64 without the bit; exact meaning of rules on i686 |
| C124 | `LogModel`: the text and level of the message of each request, as printed on Linux and Windows | Numbers read back; texts split at last colon and last space; a path written twice cannot be mistaken for another. Refuted: line breaks are not escaped, so a worker writes any line into the log |
| C125-C126 | `FsModel`: path_resolution(7) and open(2) of the kernel over a file system with links (trusted description, not code of the repository), composed with the broker's session | Walk without links reaches the named place; walks of two processes agree while the links they meet do. Both refuted: the broker follows links, and /proc/self is its own |
| C127 | `LifeModel`: Worker::new and its thread with a worker that sends datagrams and ends; recvmsg returns once nobody holds the worker's end; programs started by other threads at any of four stages | Noticed unless a program is started while the broker holds the worker's end; refuted for every such start; other workers do not keep the end |
| C128 | `WinLifeModel`: Worker::new on Windows together with the thread it spawns, with anything the pipe gives | A serving thread has sent the policy first; refuted for every call that succeeds: the result is the same if the worker ends at once or sends anything else first |
| C129 | the same with a worker that ends; ReadFile fails once nobody holds the worker's end; programs started by other threads at any of four stages, with all inheritable handles or a list | Noticed unless a program gets the worker's end; refuted for every such program |
| C130 | `ReapModel`: children of the program with their exit signals (clone's flags, SIGCHLD after execve), exit with each disposition of SIGCHLD, wait4's choice of children, any history of calls, ends and waits | Gone if every process started its program, or with __WALL; refuted for every process that ended before its program started |
| C131 | `MaskModel`: the mode of a file created by a process with a umask; the umask of a started worker from `EntryModel` | Refuted for every started worker: the mask 0600 takes the owner's rights and leaves those of group and others |
| C132 | `PolicyShowModel`: the Debug output of a policy as bytes, with any walk order of the hash tables | Partial: if no path has a line break, equal output means the same audit flag, handles, registry keys, and per path the same read and write rights and number of lock rights, and on Linux the same verdicts. Refuted: the lock rights are printed alike (different Windows verdicts), and a path with a line break is printed as two rules |
| C133 | `WinSidModel`: get_current_user_sid over the OS's answers, with a trace of what is opened and allocated | Cleaned up in every case; returns what `WinPolicyModel` describes if the OS tells the user or the path is of another root key; refuted for every refusal of the OS: a panic |
| C134 | `ExitModel`: what exit(3) does in the copy of the program: exit functions, then the stdio buffers, on the descriptors of the new process | Refuted for every failed start with an exit function, and for every failed execve with text in the buffer and a redirected output; nothing is done by started programs and by quiet programs |
| C135 | `WinContainerModel`: a machine where programs start and end, process ids are reused, and threads go through the loop of process creation in any order | Refuted by a reused process id; sharing needs two programs with the same process id of which one has ended |
| C136 | `ErrnoModel`: errno of the calling thread through each handler of `WorkerModel` | Refuted for every successful stat and for every successful relative open under a filter; holds for all other calls but chdir |
| C137 | `LockModel`, `CloneLockModel`: locks of the C library copied by clone, the locks the entry point takes, `Worker::new` waiting for it | Refuted for every start while another thread allocates; holds when the locks are free |
| C138 | `HandlerLockModel`: the locks taken by the handler of trapped calls, over `LockModel`; any number of threads | No deadlock if the allocator's own calls name no path (order of locks); refuted for every program in which one does |
| C139 | `InterruptModel`: signals during the waits of `BrokerModel`, `ProcessModel` and `WorkerModel` | Refuted for every signal with a plain handler during a wait of the broker's thread, of Worker::new or of a trapped call; holds for other signals |
| C140 | `SigMaskModel`: the mask and the action of SIGSYS over `SeccompModel` | Refuted for inherited masks, for programs that block SIGSYS and for other handlers; holds for programs that leave SIGSYS alone, and for those that first unblock it |
| C141 | `AuditCloneModel`: clone, vfork and execve through the trampoline of `TrampolineModel`, over `SigMaskModel` | Holds for fork; refuted exactly for children with a stack of their own, callers of vfork and started programs |
| C142 | `StatModel`: the structures of the kernel and of the C library in memory (`TrampolineModel`), over `WorkerModel` | Holds on x86_64; refuted for every successful stat on i686 |
| C143 | `CompatModel`: calls made by int 0x80 and with numbers of x32 in an x86_64 worker, over `WorkerModel` | Holds for calls of x86_64; refuted for every call by int 0x80 (re-run as another call, open refused, fork taken for open); x32 exact: right in audit mode, all refused outside |
| C144 | `WinAttrModel`: the memory behind the attribute list of CreateProcess: variables, buffers, lists, SIDs | Every value read is alive and right, every list deleted once, for all answers of the OS; freeing refuted: the SID of every AppContainer profile stays allocated |
| C145 | `ThreadFilterModel`: the seccomp filters of all threads, synchronisation and its fallback | Exact: all threads for good if the kernel has seccomp(2) and the filters of the others are older states of the caller's; otherwise only the caller, refuted for the others |
| C146 | `WinRaceModel`: the walk over the modules that hooks a function, interleaved with threads that load modules and bind imports | Proved for all interleavings from the exporting module on if lookups are stored at once, also for modules loaded meanwhile; refuted for modules before it, and for lookups stored late in any module |
| C147 | `CallConvModel`: the stack at calls between the library and Windows, for each calling convention; the declarations of the code beside those of Windows' headers | Proved on x86_64 and for all declarations with "system"; refuted on 32-bit Windows for the two AppContainer functions (exact shift of the stack pointer) |
| C148 | `CallbackMemModel`: the memory behind the requests and verdicts given to log callbacks in C, with the layouts the allocator sees | Proved for texts without NULs, on Windows for extended attributes that are not empty; refuted for empty ones (request for zero bytes) and for NULs on Windows (the copy stays) |
| C149 | `WinTreeModel`: NtCreateFile of the kernel over a tree with letters of either case, short names, junctions and file identifiers (trusted description, not code of the repository), composed with the broker's session | Proved for names of fewer than 32768 units, not by identifier, with no reparse point before the last component; refuted by a junction below an allowed directory and by FILE_OPEN_BY_FILE_ID |
| C150 | `WinTreeModel` with the Windows policy | Proved for equal components; refuted: the policy compares bytes, Windows ignores case and knows short names |
| C151 | `FifoModel`: threads, channel and broker thread with open(2) that waits at a FIFO (fifo(7), trusted description) | Proved when somebody outside holds the other end of each FIFO that is opened; refuted: two threads meeting at a FIFO, and access(2) of a FIFO; once the broker waits nothing is answered and its thread outlives the worker |
| C152 | `LowerModel`: the lowering function called by several threads, with the variable, the static pointer, std's lock and its poisoning, and trapped calls afterwards | Returning once: proved for all interleavings. Own answers: proved when calls do not overlap; refuted when they do (poisoned lock, crossed answers). Without a broker the function panics and does nothing |
| C153 | `RecordLockModel`: the descriptors that the broker and the worker open and close for a trapped call, over POSIX record locks (trusted description) | The locks released are given exactly; proved that stat, chdir and refused requests release none; refuted: access releases the worker's own locks, and any granted open releases those of the program around the broker |
| C154 | `CttyModel`: sessions and controlling terminals (kernel side, trusted description) under the opens the broker makes | The change is given exactly; proved when the broker leads no session or has a terminal; refuted for a daemon; O_NOCTTY is always refused |
| C155 | `LockRightModel`: what a worker does with descriptors it got and fcntl locks (kernel side as in C153), with the policy | Proved: exclusive locks need a write rule, shared ones a read rule; refuted: lock rules are not needed, fcntl is allowed whatever its arguments |
| C156 | `OwnFdModel`: the worker's descriptor table with lowest-free numbering, its close/dup/socketpair calls and trapped opens | Proved for programs that name only numbers they were given (all sequences), exact condition; refuted: close_range of everything, then a panic or a request into the program's own socket |
| C157 | no new model: the tables of the project's own file tests, against the policy, worker and broker models | Proved for all canonical paths (open, openat, Windows verdicts); the decision test's assertions checked one by one |
| C158 | `ForkModel`: processes forked before the lowering, sharing socket and variable, with the broker's thread | Proved: one return in all processes, at most one filtered, no forks means all restricted; refuted with forks: unfiltered for ever, answers crossed |
| C159 | `InflightModel`: the kernel's per-user count of descriptors in sockets, the answers of several workers' brokers, workers that pass descriptors or do not read | Proved: exact condition, all workers polite, broker with the capability; refuted: one worker ends another's session |
| C160 | `OfdModel`: open file descriptions shared with the program, file contents, reads, writes, seeks, status flags | Proved: descriptions not given stay, contents and reads follow given descriptions and rules; refuted: flags of shared descriptions, append-only files |
| C161 | `PeModel`: layouts of the structures, the walk over the loader's list and the PE headers in memory | Proved for modules with two directories or more and no directory of size zero; refuted for the others |
| C162 | `PassModel`: workers that open files through their brokers, make socket pairs and pass descriptors | `C162_partial` (no socket shared), `C162_groups` (workers of one group), `C162_all`, `C162_passed` (sharing does pass rights), `C162_filter`; `C162_refuted` (a shared socket) |
| C163 | `BrokerModel` over `FsModel`: sessions of two brokers with different file systems | `C163_partial` (same ways to the covered places, no links), `C163_session` (opens that are not allowed have no influence); `C163_refuted` (links), `C163_parent_refuted` (errors of parents) |
| C164 | `WinBrokerModel` over `WinTreeModel`: sessions of two brokers with different machines | `C164_partial` (same ways, no reparse points, same identifiers), `C164_session` (calls that are not allowed have no influence); `C164_refuted` (junctions), `C164_id_refuted` (file identifiers) |
| C165 | BrokerModel, LinuxPolicyModel (InventoryProps) | partial: the completed policy repeats the audit run (C165_partial), minimal (C165_minimal), when rules can help at all (C165_hopeless); full statement refuted (C165_refuted: O_NONBLOCK, C165_relative_refuted: relative path) |
| C166 | WinBrokerModel, WinPolicyModel (WinInventoryProps) | partial: the completed policy repeats the audit run (C166_partial), minimal (C166_minimal, C166_minimal_keys), files not on a drive letter cannot be allowed (C166_hopeless); full statement refuted (C166_refuted: a named pipe) |
| C167 | PidModel (process objects, numbers, handles of the broker, workers; on Linux the process table) | Windows: proved if no other part of the program closes a handle of a worker (C167_partial, C167_found_partial); refuted with the close of C69 (C167_refuted). Linux: proved if the program neither waits for workers nor ignores SIGCHLD (C167_linux_partial); refuted otherwise (C167_linux_refuted) |
| C168 | WinInheritModel (handles of the broker, starts of workers step by step, processes and what they inherit) | proved if every process is started with a handle list or while no other worker is between set_inheritable and the drop of its handle (C168_partial), and for programs started after Worker::new returned (C168_returned); every plain start in between gets the end of the pipe (C168_window_refuted, C168_refuted) |
| C169 | LeaseModel (open descriptions, leases and their deadlines, opens that wait) | proved: a lease needs an own file and a read or write rule (C169_partial); no open waits longer than lease-break-time (C169_bounded); refuted: a read rule is enough for a lease that stops all opens (C169_refuted) |
| C170 | `ProcMemModel`: the memory of the program as blocks, the locals of `OSSandboxedProcess::new` that own blocks, dropping on every way out, `Box::leak`/`from_raw`, clone() with a copied or shared memory, interference by other threads | `C170_handed`: what the new process reads is what was configured. `C170_partial`: everything freed exactly once if some clone() works. `C170_lost`, `C170_refuted`: one block is lost when all three fail |
| C171 | `WinShareModel`: file objects with access and share masks, the check of share access, byte-range locks and their check on reads and writes, over `WinPolicyModel` | `C171_partial`: share access as the lock rules say. `C171_unshared`, `C171_locks`: nobody is kept out of files without a rule. `C171_refuted`: a read rule is enough to lock bytes |
| C172 | `UnixSendModel`: the sockets of the machine, the calls of a worker under the filter, of other programs and from the network | `C172_partial` (connected, or a datagram socket by its name; no connecting; the network only through given sockets), `C172_paths` (own namespace: names of files only), `C172_without` (a filter without socketpair), `C172_sent` (any such name is reached, with descriptors); `C172_refuted` |
| C173 | `WinRenameModel`: volume of places and files, the worker's opens through the broker's policy, FileRenameInformation and FileDispositionInformation on its handles (NT as documented, trusted description), other programs making and removing files | Refuted: a handle with DELETE renames a file to a name no rule covers, and renames a file nobody may read to one that may be read; proved: changed places may be written or are beside the place of a rule, every free name beside is reached, nothing changes without rules for writing, nothing else is read where a directory is read alike |
| C174 | NameModel (newfstatat by the kernel, over the walk of FsModel), WorkerModel, BrokerModel | absolute names (links alike) and relative names of a worker in the root directory proved (`_partial`); what open makes of a relative name (`C174_relative`); false for relative names otherwise (`C174_refuted`) |
| C175 | `BrokerLargeModel`: the broker loop of `BrokerModel` with the i686 policy of `LargeFileModel` | `C175_answers` (each request answered as the rules say), `C175_only_granted`, `C175_same_rights`, `C175_without_flag` |
| C176 | `WorkerLargeModel`: the handler of `WorkerModel` against the broker of `BrokerLargeModel` | `C176_open` (absolute paths, any flags, answered as the rules say), `C176_relative`, `C176_without_flag` (without the flag `trap32` is `trap`) |
| C177 | `FileFunModel`: the calls of the C library on both targets, with `SeccompModel` and `WorkerLargeModel` | `C177_partial` (17 functions but four), `C177_forgotten_refuted` (stat, fcntl, ftruncate, sendfile: ENOSYS), `C177_audit`, `C177_refuted` |

## 5. Parts of the code that are not modelled

* Logging (`log` crate macros) other than the message of each request (C124), `Display` of errors, documentation, tests,
  build scripts, examples.
* `ipc/src/linux/messagepipe.rs` and `ipc/src/windows/messages.rs`
  (not part of any module).
* The translation of libseccomp rules to BPF (the library is trusted to
  produce a program with the meaning of its rules); only its post-processing
  and the meaning of the rules are modelled.
* In the entry point: debug messages. Mounting `/proc` and the host name are in `IsolationModel` only, where the kernel's rules for maps, unshare and mount are assumptions about Linux.
  In process creation: (outside `ProcMemModel`) the clone stack and the leaked parameter box, and other
  threads of the broker that open or close descriptors during `Worker::new`.
* On Windows: (outside `WinSidModel`) `get_current_user_sid` and (outside `WinPathModel`) `GetFullPathNameW` are
  answers of the OS (any string); panics inside the former are left out. The broker's handle table is
  changed by one thread only. When starting Windows workers:
  OS error codes, what SetEntriesInAcl does (a function of the OS; documented behaviour is a
  hypothesis of C105), `CloseHandle` of the thread handle, (outside `WinInheritModel`) other threads that start workers at
  the same time. The command line splitting rules are those of the Microsoft C runtime.
  In the hooks: (outside `PeModel`) PE headers are taken to be as expected, guard pages (page protection is in
  `WinPatchModel`), the module list and
  its changes by other threads, modules loaded later, the mutex around the pipe.
* In the C bindings: several threads using one object, the debug build's panic on a
  failing `close`, reuse of freed addresses, the worker library's bindings.
* Signals of terminals, owners that files had before the worker got them, F_SETLEASE (leases themselves are in `LeaseModel`), F_NOTIFY
  and audit mode in `SignalModel`.
* On i686 `O_LARGEFILE` is a flag; the models built on top of `LinuxPolicyModel` (broker,
  worker, ...) use the x86_64 constant for both. C123 says what the decision is on i686 and C175
  and C176 what the broker's loop and the worker's handler do there.
* Memory safety of `unsafe` blocks beyond what the properties mention.
* Timing, scheduling fairness, resource exhaustion.

## 6. Axioms used

`Print Assumptions` says `Closed under the global context` for every property
theorem: no axioms are used.
