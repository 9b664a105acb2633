{"id": "C01", "title": "Deny by default", "statement": "A policy made with Policy::nothing_allowed() grants no request at all: evaluating any file-open or syscall request returns a verdict other than Granted.", "quantifier": "every path string, every flag word, every syscall number, argument vector and instruction pointer", "why_tests_cant": "The set of paths and flag words is infinite; a test only tries a few.", "anchors": ["policy/src/policy.rs:nothing_allowed", "policy/src/linux/policy.rs:evaluate_request", "policy/src/linux/policy.rs:check_file_open"]}
{"id": "C02", "title": "Exact meaning of file and directory rules", "statement": "After any sequence of allow_file_*/allow_dir_* calls, an open request is Granted exactly when its flags are supported, its path is a canonical absolute path, and each right the flags need is given by a file rule naming that exact path or by a directory rule naming that path or one of its ancestors below the root (rules and requests may each carry one trailing slash).", "quantifier": "every sequence of allow calls with any path strings and any rights, every requested path, every flag word", "why_tests_cant": "The claim is an equivalence over unbounded rule histories and paths of unbounded depth.", "anchors": ["policy/src/policy.rs:allow_file_access", "policy/src/policy.rs:get_filepath_allowed_access", "policy/src/lib.rs:strip_one_component", "policy/src/linux/policy.rs:check_file_open"]}
{"id": "C03", "title": "Directory rules respect component boundaries", "statement": "A rule on directory /a/b never gives access to a sibling whose name only starts with the same characters (such as /a/bc or /a/b.txt), nor to the parent directory.", "quantifier": "every directory path, every non-empty suffix glued to its last component, every flag word", "why_tests_cant": "Prefix confusion depends on unbounded name pairs.", "anchors": ["policy/src/policy.rs:get_filepath_allowed_access", "policy/src/lib.rs:strip_one_component"]}
{"id": "C04", "title": "Only canonical absolute paths can be granted", "statement": "When not in audit-only mode, a Granted file-open request always names an absolute path whose components are all non-empty and different from . and .., so the kernel cannot walk out of the directory the rule names by lexical means.", "quantifier": "every policy built through the API, every path and flag word", "why_tests_cant": "Traversal tricks form an infinite family of strings.", "anchors": ["policy/src/linux/path.rs:path_is_sane", "policy/src/linux/policy.rs:check_file_open"]}
{"id": "C05", "title": "Rules accumulate: order, repetition and additions never remove rights", "statement": "Allow calls only add rights: adding a rule never turns a Granted verdict into a denial, the order of allow calls does not change any verdict, and repeating a call changes nothing.", "quantifier": "every policy, every list of allow calls, every permutation of it, every request", "why_tests_cant": "Permutations and histories are unbounded.", "anchors": ["policy/src/policy.rs:allow_file_access", "policy/src/policy.rs:Policy"]}
{"id": "C06", "title": "A rule affects only the paths it covers", "statement": "Adding a rule for one path does not change the verdict of any request whose path is not that path and not below it; a rejected allow call leaves the policy as it was.", "quantifier": "every policy, every rule, every request path not covered by the rule", "why_tests_cant": "Universal non-interference over infinitely many unrelated paths.", "anchors": ["policy/src/policy.rs:allow_file_access", "policy/src/linux/path.rs:derive_all_file_paths_from_path"]}
{"id": "C07", "title": "No write, truncate or create without a write right", "statement": "If a file-open request is Granted in enforcing mode and its flags would let the kernel return a writable descriptor, truncate, append to or create the file, then a rule gives write access to that path.", "quantifier": "every policy built through the API, every path, every 32-bit flag word", "why_tests_cant": "There are 2^32 flag words times unbounded paths.", "anchors": ["policy/src/linux/policy.rs:check_file_open", "policy/src/linux/policy.rs:SUPPORTED_FLAGS"]}
{"id": "C08", "title": "No read without a read right", "statement": "If a file-open request is Granted in enforcing mode and its flags would let the kernel return a readable descriptor, then a rule gives read access to that path; an O_PATH open needs at least one read or write right.", "quantifier": "every policy built through the API, every path, every 32-bit flag word", "why_tests_cant": "There are 2^32 flag words times unbounded paths.", "anchors": ["policy/src/linux/policy.rs:check_file_open"]}
{"id": "C09", "title": "Unknown open flags are refused", "statement": "Any flag bit outside the supported list (for instance O_NOFOLLOW, O_TMPFILE, O_DIRECT or the sign bit) makes an enforcing policy refuse the request whatever the rules say.", "quantifier": "every policy, every path, every 32-bit flag word with an unsupported bit", "why_tests_cant": "Every combination of the other 31 bits has to be covered.", "anchors": ["policy/src/linux/policy.rs:check_file_open"]}
{"id": "C10", "title": "A rule on the root directory covers the whole tree", "statement": "After allow_dir_read(\"/\") a read-only open of any canonical absolute path is granted.", "quantifier": "every canonical absolute path", "why_tests_cant": "A test picks one directory; the root is the single value where the component walk ends differently.", "anchors": ["policy/src/lib.rs:strip_one_component", "policy/src/policy.rs:get_filepath_allowed_access"]}
{"id": "C11", "title": "Lock rights do not grant access", "statement": "allow_file_lock and allow_dir_lock rules alone never make any open request Granted on Linux.", "quantifier": "every list of lock-only rules, every request", "why_tests_cant": "Universal over rule lists and requests.", "anchors": ["policy/src/policy.rs:allow_file_lock", "policy/src/linux/policy.rs:check_file_open"]}
{"id": "C12", "title": "Audit mode reports the true verdict and lets everything through", "statement": "With unsafe_testing_audit_only every evaluated request returns Granted, while each registered callback receives exactly the verdict an enforcing policy with the same rules would have returned.", "quantifier": "every set of rules, every list of callbacks, every request", "why_tests_cant": "Relates two policies on all requests.", "anchors": ["policy/src/linux/policy.rs:evaluate_request", "policy/src/policy.rs:unsafe_testing_audit_only", "policy/src/policy.rs:log_verdict"]}
{"id": "C13", "title": "Log callbacks fire once each, in order, for every verdict", "statement": "Each evaluated request calls every registered callback exactly once, in registration order, with the request and its verdict; the documentation in the C header says denied actions only.", "quantifier": "every number of callbacks, every request, every verdict", "why_tests_cant": "Ordering and exactly-once over arbitrary callback lists.", "anchors": ["policy/src/policy.rs:log_verdict", "policy/src/policy.rs:add_log_callback"]}
{"id": "C14", "title": "The runtime policy decides like the original policy", "statement": "The policy returned by get_runtime_policy() gives the same verdict and the same callback calls as the policy it was made from on every request, and holds no inheritable handle.", "quantifier": "every policy, every request", "why_tests_cant": "Equivalence on all requests.", "anchors": ["policy/src/policy.rs:get_runtime_policy"]}
{"id": "C15", "title": "Only inheritable handles can be listed for inheritance", "statement": "allow_inherit_handle refuses a handle that is close-on-exec and leaves the list unchanged; otherwise exactly that handle is added. The inherited set is the set of accepted handles, without duplicates.", "quantifier": "every sequence of allow_inherit_handle calls with arbitrary handles", "why_tests_cant": "Histories are unbounded.", "anchors": ["policy/src/policy.rs:allow_inherit_handle", "policy/src/policy.rs:get_inherited_handles"]}
{"id": "C16", "title": "Serializing a policy preserves its decisions", "statement": "Encoding a policy with postcard and decoding it gives a policy with the same rules and audit flag, whatever order the hash map enumerates its entries in, and therefore the same verdicts; callbacks and handles are dropped.", "quantifier": "every policy, every enumeration order of its maps, every request", "why_tests_cant": "HashMap order is randomised and the policy unbounded.", "anchors": ["policy/src/policy.rs:Policy", "ipc/src/channel.rs:serialize", "ipc/src/channel.rs:deserialize"]}
{"id": "C17", "title": "IPC messages survive the wire", "statement": "Decoding the encoding of any request or response yields the same message, even when followed by other bytes.", "quantifier": "every IPCRequest and IPCResponse value, every trailing byte string", "why_tests_cant": "Round trip over all paths, flags, 64-bit arguments and filter blobs.", "anchors": ["ipc-messages/src/linux/mod.rs:IPCRequest", "ipc-messages/src/linux/mod.rs:IPCResponse", "ipc/src/channel.rs"]}
{"id": "C18", "title": "Decoding hostile bytes is safe", "statement": "For any byte string the decoder either reports an error or returns a message whose path is valid UTF-8 and is a contiguous part of the received bytes; it never reads past the end.", "quantifier": "every byte string of any length", "why_tests_cant": "Attacker-chosen bytes, unbounded.", "anchors": ["ipc/src/channel.rs:deserialize", "ipc-messages/src/linux/mod.rs"]}
{"id": "C19", "title": "No message is silently truncated", "statement": "send either hands the complete encoding of the message to the socket or fails, and recv either decodes one complete datagram or fails: a received message is always one that was sent in full.", "quantifier": "every message, every buffer size, every datagram size", "why_tests_cant": "Depends on all lengths around and above the 64 KiB limit.", "anchors": ["ipc/src/linux/channel.rs:send", "ipc/src/linux/channel.rs:recv", "ipc/src/lib.rs:IPC_MESSAGE_MAX_SIZE"]}
{"id": "C20", "title": "Sending a handle passes exactly that handle", "statement": "When the broker sends a message with one handle, the receiving process obtains that descriptor and no other descriptor of the sender.", "quantifier": "every descriptor number, every sender descriptor table, on each supported word size", "why_tests_cant": "Tests only look at the one descriptor they asked for, not at extra ones the kernel installs.", "anchors": ["ipc/src/linux/channel.rs:send", "ipc/src/linux/channel.rs:CMSG_SIZE"]}
{"id": "C21", "title": "Receiving never leaks a descriptor", "statement": "Whatever ancillary data the peer attaches, after recv every descriptor the kernel installed is either owned by the returned value or closed.", "quantifier": "every datagram, every number of attached descriptors, every decode outcome", "why_tests_cant": "A hostile peer controls the number of descriptors and the payload.", "anchors": ["ipc/src/linux/channel.rs:recv"]}
{"id": "C22", "title": "Handle ownership: one close per owned descriptor", "statement": "A Handle closes its descriptor exactly once when dropped, not at all after into_raw, clones own distinct descriptors, and set_inheritable(b) followed by is_inheritable gives b while leaving the other descriptor flags alone; a clone is inheritable exactly when the original is.", "quantifier": "every descriptor table, every sequence of handle operations", "why_tests_cant": "Ownership over arbitrary operation sequences.", "anchors": ["ipc/src/linux/handle.rs:Handle"]}
{"id": "C23", "title": "The broker opens only what the policy grants", "statement": "In enforcing mode every open() the broker performs on behalf of a worker has a path and flags for which the user's rules give the needed rights; no other request type makes the broker touch the file system.", "quantifier": "every worker byte stream (any number of datagrams with any content), every rule history, every kernel result", "why_tests_cant": "The worker is hostile and the session unbounded.", "anchors": ["broker/src/linux/brokered_syscalls.rs:proxied_open_file", "broker/src/linux/ipc_loop.rs:start_ipc_loop"]}
{"id": "C24", "title": "Denied requests have no effect", "statement": "A request that the enforcing policy does not grant is answered with -EACCES, no descriptor is attached and no system call is made for it.", "quantifier": "every policy, every request, every session", "why_tests_cant": "Absence of effects over unbounded sessions.", "anchors": ["broker/src/linux/brokered_syscalls.rs:proxied_open_file"]}
{"id": "C25", "title": "One reply per request, in order, with a handle exactly on success", "statement": "While the session lasts, the n-th reply answers the n-th request, and a descriptor is attached exactly when the open succeeded (code 0); failures carry a negative code and no descriptor.", "quantifier": "every sequence of worker datagrams, every kernel result", "why_tests_cant": "Unbounded message sequences.", "anchors": ["broker/src/linux/ipc_loop.rs:start_ipc_loop"]}
{"id": "C26", "title": "Forwarded raw system calls are never executed by the broker", "statement": "A Syscall request of any number and arguments is answered with -ENOSYS and makes the broker perform no system call.", "quantifier": "every syscall number, argument vector and policy, audit mode included", "why_tests_cant": "Universal over 64-bit arguments.", "anchors": ["broker/src/linux/brokered_syscalls.rs:proxied_syscall"]}
{"id": "C27", "title": "Nothing is served before a valid handshake", "statement": "start_ipc_loop succeeds only if the first datagram is an InitializationRequest without a handle; any other first datagram, end of stream or receive error yields an error and no request is ever served.", "quantifier": "every first datagram and every continuation", "why_tests_cant": "All byte strings.", "anchors": ["broker/src/linux/ipc_loop.rs:start_ipc_loop"]}
{"id": "C28", "title": "A malformed datagram or unexpected handle ends the session", "statement": "After the handshake, a datagram that does not decode or that carries a descriptor ends the loop without being served, and nothing after it is served.", "quantifier": "every session prefix, every bad datagram, every continuation", "why_tests_cant": "Unbounded sessions with hostile content.", "anchors": ["broker/src/linux/ipc_loop.rs:start_ipc_loop"]}
{"id": "C29", "title": "The broker thread never panics on worker input", "statement": "No sequence of datagrams makes the broker's IPC thread panic.", "quantifier": "every sequence of worker datagrams and every policy", "why_tests_cant": "Panics need a particular byte (NUL) in a granted path.", "anchors": ["broker/src/linux/brokered_syscalls.rs:proxied_open_file", "bindings/C/broker/src/policy.rs"]}
{"id": "C30", "title": "The broker keeps no descriptor it opened for the worker", "statement": "After each served request the broker's descriptor table is what it was before the request, whether the open was denied, failed or succeeded and was sent.", "quantifier": "every session, every kernel result", "why_tests_cant": "Leaks show only over long sessions.", "anchors": ["broker/src/linux/ipc_loop.rs:start_ipc_loop", "broker/src/linux/brokered_syscalls.rs:proxied_open_file"]}
{"id": "C31", "title": "Each worker thread receives the answer to its own request", "statement": "With any number of threads trapping system calls concurrently, every thread gets the reply the broker computed for the request that thread sent.", "quantifier": "every number of threads, every interleaving of their steps with the broker, every request sequence", "why_tests_cant": "Interleavings are unbounded and scheduler dependent.", "anchors": ["worker/src/linux/lockdown.rs:send_recv", "broker/src/linux/ipc_loop.rs"]}
{"id": "C32", "title": "Trapped system calls always complete", "statement": "From every reachable state of the worker threads and the broker some step is possible until all trapped calls have been answered (no deadlock).", "quantifier": "every interleaving, including a signal handler that traps while its thread is inside the SIGSYS handler", "why_tests_cant": "Deadlocks depend on rare schedules.", "anchors": ["worker/src/linux/lockdown.rs:sigsys_handler", "worker/src/linux/lockdown.rs:IN_SIGSYS_HANDLER", "worker/src/linux/lockdown.rs:send_recv"]}
{"id": "C33", "title": "Recursive SIGSYS is detected", "statement": "If a system call traps while the same thread already runs the SIGSYS handler, the handler notices it through its thread-local flag and stops.", "quantifier": "every sequence of handler entries and exits", "why_tests_cant": "Needs a nested trap at a chosen moment.", "anchors": ["worker/src/linux/lockdown.rs:sigsys_handler", "worker/src/linux/lockdown.rs:IN_SIGSYS_HANDLER"]}
{"id": "C34", "title": "Relative paths are resolved against the worker's current directory", "statement": "open and openat with a relative path request the file that the path names relative to the worker's current directory.", "quantifier": "every current directory, every relative path, every seccomp answer to getcwd", "why_tests_cant": "Depends on which system calls the filter traps at run time.", "anchors": ["worker/src/linux/lockdown.rs:handle_openat", "broker/src/linux/seccomp.rs:SYSCALLS_ALLOWED_BY_DEFAULT"]}
{"id": "C35", "title": "access() answers according to the policy", "statement": "For a file with only a read rule access(R_OK) succeeds and access(W_OK) fails; for any rule set access(mode) succeeds only if the rules give the rights the mode asks for and the kernel can open the file.", "quantifier": "every rule history, every path, every access mode", "why_tests_cant": "All mode and right combinations over all paths.", "anchors": ["worker/src/linux/lockdown.rs:handle_access", "worker/src/linux/lockdown.rs:get_fd_for_path_with_perms"]}
{"id": "C36", "title": "stat() and chdir() need some right on the path", "statement": "A trapped stat or chdir succeeds only if a rule gives a read or write right on the canonical absolute path; any such rule suffices as far as the policy is concerned.", "quantifier": "every rule history, every path", "why_tests_cant": "All rule histories and paths.", "anchors": ["worker/src/linux/lockdown.rs:handle_stat", "worker/src/linux/lockdown.rs:handle_chdir"]}
{"id": "C37", "title": "The requested path reaches the broker unchanged", "statement": "The path in the request sent to the broker has exactly the bytes the program passed to open().", "quantifier": "every NUL-terminated byte string", "why_tests_cant": "Non-UTF-8 names are rarely tested.", "anchors": ["worker/src/linux/lockdown.rs:read_string_from_ptr"]}
{"id": "C38", "title": "The worker's dispatch never panics on broker replies", "statement": "Every reply the broker can produce for the request a worker handler sent is handled without panicking, and the value returned to the program is a descriptor number or a negative errno.", "quantifier": "every request kind, every broker policy, every kernel result", "why_tests_cant": "Needs the composition of both processes.", "anchors": ["worker/src/linux/lockdown.rs:sigsys_handler", "worker/src/linux/lockdown.rs:get_fd_for_path_with_perms"]}
{"id": "C39", "title": "System calls are routed by number as documented", "statement": "Trapped open, openat (absolute path or AT_FDCWD), access, stat and chdir are turned into policy-checked requests; every other trapped call is forwarded as a raw Syscall with all its arguments unchanged.", "quantifier": "every syscall number and argument vector", "why_tests_cant": "64-bit numbers and arguments.", "anchors": ["worker/src/linux/lockdown.rs:sigsys_handler"]}
{"id": "C40", "title": "Audit mode re-runs the exact trapped call", "statement": "The assembly trampoline executes the system call with the number and the six arguments it was given, on x86_64 and i686, and restores the stack pointer and callee-saved registers.", "quantifier": "every 64-bit (32-bit) argument value and every initial register content", "why_tests_cant": "2^448 argument combinations.", "anchors": ["worker/src/linux/arch/x86_64/seccomp.rs:rerun_syscall", "worker/src/linux/arch/i686/seccomp.rs"]}
{"id": "C41", "title": "The whitelisted call site is the trampoline's own system call", "statement": "The address the audit filter allows is the address of the instruction following the trampoline's syscall instruction, which is the instruction pointer the kernel reports to seccomp.", "quantifier": "every load address of the trampoline", "why_tests_cant": "A wrong constant loops forever only in audit mode on that architecture.", "anchors": ["worker/src/linux/arch/x86_64/seccomp.rs:SYSCALL_ASM_OFFSET", "worker/src/linux/arch/i686/seccomp.rs:SYSCALL_ASM_OFFSET"]}
{"id": "C42", "title": "The audit prelude allows exactly one call site", "statement": "The five BPF instructions placed before the filter allow a call whose 64-bit instruction pointer equals the placeholder address, and leave the decision on every other call to the original filter.", "quantifier": "every seccomp_data (instruction pointer, number, architecture, arguments) and every original filter", "why_tests_cant": "2^64 addresses and arbitrary filters.", "anchors": ["broker/src/linux/seccomp.rs:compute_seccomp_filter"]}
{"id": "C43", "title": "Patching the placeholder yields the filter for the real address", "statement": "After the worker replaces the placeholder bytes, the loaded filter allows exactly the worker's own call site and otherwise equals the broker's original filter.", "quantifier": "every 64-bit call-site address and every original filter", "why_tests_cant": "Byte patterns colliding with the placeholder depend on the address and filter.", "anchors": ["worker/src/linux/lockdown.rs:lower_final_sandbox_privileges", "ipc-messages/src/linux/mod.rs:IPC_SECCOMP_CALL_SITE_PLACEHOLDER"]}
{"id": "C44", "title": "The default filter never allows executable memory or process and file-name system calls", "statement": "No call to mmap, mmap2 or mprotect whose protection has the execute bit is allowed, and no call that opens a path, creates a process, loads a program, opens a socket or traces a process is allowed without trapping.", "quantifier": "every argument vector and every syscall number", "why_tests_cant": "64-bit argument values.", "anchors": ["broker/src/linux/seccomp.rs:SYSCALLS_ALLOWED_BY_DEFAULT", "broker/src/linux/seccomp.rs:compute_seccomp_filter"]}
{"id": "C45", "title": "Signals can only be sent to the worker itself", "statement": "kill and tgkill are allowed exactly when the target is the worker itself, as numbered in the worker's own PID namespace.", "quantifier": "every target pid, every clone flag fallback outcome", "why_tests_cant": "Depends on which namespaces the kernel granted.", "anchors": ["broker/src/linux/seccomp.rs:compute_seccomp_filter", "broker/src/linux/process.rs:try_clone"]}
{"id": "C46", "title": "A worker never runs unfiltered", "statement": "If the seccomp filter cannot be computed or is missing, the worker does not go on running without a filter.", "quantifier": "every failure of the filter construction", "why_tests_cant": "Needs failure injection in libseccomp.", "anchors": ["broker/src/linux/ipc_loop.rs:start_ipc_loop", "worker/src/linux/lockdown.rs:lower_final_sandbox_privileges"]}
{"id": "C47", "title": "The worker starts with exactly the permitted descriptors", "statement": "When the worker program starts, its open descriptors are 0, 1, 2 and the descriptors the policy lists for inheritance (which include the IPC channel), and nothing else of the broker's table.", "quantifier": "every broker descriptor table, every allowed list", "why_tests_cant": "Arbitrary tables of arbitrary size.", "anchors": ["linux-entrypoint/src/entry.rs:clone_entrypoint", "broker/src/linux/process.rs"]}
{"id": "C48", "title": "Standard streams are wired as configured", "statement": "In the worker, descriptors 0, 1 and 2 refer to the files the broker configured with redirect_stdin, redirect_stdout and redirect_stderr, or to /dev/null when not configured.", "quantifier": "every broker descriptor table and every choice of the three handles, including numbers 0 to 2", "why_tests_cant": "Aliasing among low descriptor numbers.", "anchors": ["linux-entrypoint/src/entry.rs:setup_std_file_descriptor"]}
{"id": "C49", "title": "Unredirected output is ignored, not an error", "statement": "A worker whose stdout and stderr are not redirected can write to them and the data is discarded.", "quantifier": "every write", "why_tests_cant": "Depends on the open mode of /dev/null.", "anchors": ["linux-entrypoint/src/entry.rs:setup_std_file_descriptor"]}
{"id": "C50", "title": "The worker program runs only with no_new_privs set", "statement": "Whatever system calls fail during setup, execve of the worker is reached only after PR_SET_NO_NEW_PRIVS succeeded and the three standard descriptors were set up.", "quantifier": "every pattern of failing system calls", "why_tests_cant": "Exponentially many failure patterns.", "anchors": ["linux-entrypoint/src/entry.rs:clone_entrypoint"]}
{"id": "C51", "title": "A worker whose setup succeeded has no capabilities", "statement": "If the capability calls succeed, the worker's permitted, effective, inheritable and bounding sets are empty at execve; the claim also for failing calls would need them to be fatal.", "quantifier": "every initial capability state, every number of capabilities known to the kernel, every failure pattern", "why_tests_cant": "Capability sets and kernel failures are environment dependent.", "anchors": ["linux-entrypoint/src/capabilities.rs:drop_capabilities"]}
{"id": "C52", "title": "A failing execve is reported to the caller", "statement": "If execve fails with some errno, process creation in the broker fails with that same errno value.", "quantifier": "every errno value, every read outcome of the pipe", "why_tests_cant": "All errno values and byte orders.", "anchors": ["linux-entrypoint/src/entry.rs:clone_entrypoint", "broker/src/linux/process.rs"]}
{"id": "C53", "title": "Worker::new succeeds only with a live handshaked worker", "statement": "Worker::new returns Ok only if the process was created, its execve did not report an error, and the worker sent a correct initialization request that was answered.", "quantifier": "every pattern of failures in channel, process creation and handshake", "why_tests_cant": "Failure combinations.", "anchors": ["broker/src/worker.rs:Worker::new"]}
{"id": "C54", "title": "Worker::new does not leak broker descriptors", "statement": "After Worker::new fails the broker's descriptor table is what it was before; after it succeeds the only addition is the broker end of the IPC channel.", "quantifier": "every broker descriptor table and every failure pattern", "why_tests_cant": "Every early return must be followed.", "anchors": ["broker/src/worker.rs:Worker::new", "broker/src/linux/process.rs"]}
{"id": "C55", "title": "No worker process survives a failed Worker::new", "statement": "When Worker::new returns an error, no process it created is left running.", "quantifier": "every failure pattern", "why_tests_cant": "Failure after clone is rarely exercised.", "anchors": ["broker/src/worker.rs:Worker::new", "broker/src/linux/process.rs"]}
{"id": "C56", "title": "Environment variables have unique names", "statement": "After any sequence of set_environment_variable calls no two variables share a name; a call that would duplicate a name fails and changes nothing; accepted variables keep their order.", "quantifier": "every sequence of calls with arbitrary byte strings", "why_tests_cant": "Histories and strings are unbounded.", "anchors": ["broker/src/process_config.rs:set_environment_variable", "broker/src/process_config.rs:name_from_env"]}
{"id": "C57", "title": "The worker environment is exactly the configured one plus the IPC variable", "statement": "On Linux the worker's environment is the configured variables in order followed by SANDBOX_IPC_HANDLE=<n>, and the worker parses n back to the descriptor of its channel end.", "quantifier": "every configuration, every descriptor number", "why_tests_cant": "All decimal numbers and configurations.", "anchors": ["broker/src/worker.rs:Worker::new", "worker/src/lib.rs:lower_final_sandbox_privileges_asap"]}
{"id": "C58", "title": "The configured working directory is used", "statement": "A worker created after set_current_working_directory(d) starts in directory d.", "quantifier": "every directory", "why_tests_cant": "No test sets it.", "anchors": ["broker/src/process_config.rs:set_current_working_directory", "broker/src/linux/process.rs"]}
{"id": "C59", "title": "StackBuffer is a truncating NUL-terminated writer", "statement": "After any writes, the buffer's bytes are the first SIZE-1 bytes of everything written, the byte after them is NUL, and no write panics.", "quantifier": "every buffer size of at least one, every sequence of strings", "why_tests_cant": "Unbounded sequences and sizes.", "anchors": ["ipc/src/stackbuffer.rs:StackBuffer"]}
{"id": "C60", "title": "Namespace fallback", "statement": "Process creation tries user+PID namespaces, then a PID namespace, then none, stops at the first success, and fails only if all three clones fail, with the last error.", "quantifier": "every pattern of clone failures", "why_tests_cant": "Kernel configuration dependent.", "anchors": ["broker/src/linux/process.rs:try_clone"]}
{"id": "C61", "title": "Windows: exact meaning of file rules", "statement": "On a release build an NtCreateFile request is Granted in enforcing mode exactly when all its access, attribute, disposition and option bits are supported and each right it needs (read, write, and each sharing mode it withholds) is given by a rule on the path or an ancestor.", "quantifier": "every rule history, every path with non-empty components (soundness: every path string), every 32-bit value of each parameter", "why_tests_cant": "Six 32-bit parameters and unbounded paths.", "anchors": ["policy/src/windows/policy.rs:check_file_open"]}
{"id": "C62", "title": "Windows: verdicts do not depend on the file name's extension", "statement": "A file whose name contains .pdb is subject to the same rules as any other file.", "quantifier": "every path, debug and release builds", "why_tests_cant": "The exception hides behind a build flag.", "anchors": ["policy/src/windows/policy.rs:check_file_open"]}
{"id": "C63", "title": "Windows: reparse points are never followed", "statement": "Every file the broker opens for a worker is opened with the open-reparse-point option, whatever options the worker asked for.", "quantifier": "every request", "why_tests_cant": "2^32 option words.", "anchors": ["broker/src/windows/brokered_syscalls.rs:proxied_ntcreatefile"]}
{"id": "C64", "title": "Windows: the object opened is the object checked", "statement": "The name given to NtCreateFile by the broker is the path that the policy evaluated.", "quantifier": "every path up to the IPC message size", "why_tests_cant": "Needs paths longer than 32767 UTF-16 units.", "anchors": ["broker/src/windows/brokered_syscalls.rs:proxied_ntcreatefile"]}
{"id": "C65", "title": "Windows: registry rules", "statement": "A registry request is Granted exactly when its rights and options are supported and each right it needs is given by a rule on the key or an ancestor; in particular a read rule suffices for KEY_READ.", "quantifier": "every rule history, key path and 32-bit access mask", "why_tests_cant": "All access masks.", "anchors": ["policy/src/windows/policy.rs:check_reg_key_open"]}
{"id": "C66", "title": "Windows: accepted rule paths have an effect", "statement": "If allow_file_read(p) returns Ok then a read open of the NT form of p is granted.", "quantifier": "every path string, every GetFullPathNameW result", "why_tests_cant": "Depends on path shapes (UNC, device, relative).", "anchors": ["policy/src/windows/path.rs:derive_all_file_paths_from_path"]}
{"id": "C67", "title": "Windows: registry path translation respects component boundaries", "statement": "allow_regkey_read on a root key name followed by other characters than a separator is rejected, and every accepted path is translated to the NT path of the same key.", "quantifier": "every key path string", "why_tests_cant": "All prefixes.", "anchors": ["policy/src/windows/path.rs:derive_all_reg_key_paths_from_path"]}
{"id": "C68", "title": "Windows: cloning a handle yields a handle to the same object", "statement": "Handle::clone returns the handle DuplicateHandle created.", "quantifier": "every handle value and kernel result", "why_tests_cant": "The returned value happens to look valid.", "anchors": ["ipc/src/windows/handle.rs:Clone"]}
{"id": "C69", "title": "Windows: a worker cannot make the broker close its own handles", "statement": "No message from a worker makes the broker close a handle that the broker did not duplicate or create for that exchange.", "quantifier": "every worker message", "why_tests_cant": "Hostile message content.", "anchors": ["ipc/src/windows/channel.rs:recv", "broker/src/windows/ipc_loop.rs"]}
{"id": "C70", "title": "Windows: process creation terminates and fills every attribute slot", "statement": "The fallback loop of process creation ends after finitely many attempts whatever the OS answers, and each attempt sets exactly as many attributes as it allocated.", "quantifier": "every pattern of OS failures and capability of the system", "why_tests_cant": "Exponentially many failure patterns.", "anchors": ["broker/src/windows/process.rs"]}
{"id": "C71", "title": "Windows: the environment block carries every variable", "statement": "Parsing the environment block given to CreateProcess yields the configured variables and, for each forced variable not configured, its broker value.", "quantifier": "every configuration and broker environment", "why_tests_cant": "Arbitrary strings.", "anchors": ["broker/src/windows/process.rs"]}
{"id": "C72", "title": "Windows: command line arguments arrive as configured", "statement": "Splitting the command line built by the broker with the standard Windows rules gives back the configured arguments.", "quantifier": "every argument list", "why_tests_cant": "Quotes, tabs, backslashes and empty arguments.", "anchors": ["broker/src/windows/process.rs"]}
{"id": "C73", "title": "Windows: the inherited handle list has no duplicates and loses nothing", "statement": "The list passed to UpdateProcThreadAttribute contains each permitted handle exactly once.", "quantifier": "every list of handles with repetitions", "why_tests_cant": "Arbitrary lists.", "anchors": ["broker/src/windows/process.rs"]}
{"id": "C74", "title": "Windows: trampolines jump to their target", "statement": "The bytes written by write_trampoline, executed at any address, transfer control to the target address with the stack pointer unchanged (x86_64 and x86).", "quantifier": "every location and every target address", "why_tests_cant": "2^128 address pairs, sign extension of the pushed half.", "anchors": ["worker/src/windows/lockdown.rs:write_trampoline"]}
{"id": "C75", "title": "C API: no error is reported as success and codes are distinct", "statement": "Every error value maps to a non-zero status, and only success maps to zero.", "quantifier": "every error value", "why_tests_cant": "All variants with all payloads.", "anchors": ["bindings/C/broker/src/error.rs"]}
{"id": "C76", "title": "C API: a rejected call leaves its objects alive and the caller's handle open", "statement": "If iris_policy_allow_inherit_handle fails, the policy object is still valid and the caller's handle still open; iris_policy_free never closes the caller's handles.", "quantifier": "every sequence of calls", "why_tests_cant": "Fails only on the 33rd handle.", "anchors": ["bindings/C/broker/src/policy.rs:iris_policy_allow_inherit_handle", "bindings/C/broker/src/policy.rs:iris_policy_free"]}
{"id": "C77", "title": "C API: redirecting streams does not close the caller's descriptors", "statement": "No sequence of iris_process_config_redirect_* and iris_process_config_free closes a descriptor twice or closes one the caller still owns.", "quantifier": "every sequence of calls with arbitrary descriptors", "why_tests_cant": "Needs the same descriptor used twice.", "anchors": ["bindings/C/broker/src/process_config.rs"]}
{"id": "C78", "title": "open() through the sandbox is open() restricted by the rules", "statement": "In enforcing mode a trapped open of an absolute path returns a descriptor exactly when the user's rules give the needed rights and the kernel opened that path for the broker; the descriptor is the lowest free one, refers to that file, no other descriptor changes, and otherwise the result is the negated errno and nothing changes.", "quantifier": "every policy, path, flag set, kernel answer and descriptor table", "why_tests_cant": "The claim spans worker, wire format, broker, policy and descriptor passing for all inputs.", "anchors": ["worker/src/linux/lockdown.rs:handle_openat", "broker/src/linux/brokered_syscalls.rs:proxied_open_file"]}
{"id": "C79", "title": "A brokered open keeps the mode and the close-on-exec choice of the program", "statement": "The mode argument of open() is used for created files and the new descriptor is close-on-exec exactly when O_CLOEXEC was given.", "quantifier": "every path, flag set and mode", "why_tests_cant": "Tests use one mode.", "anchors": ["worker/src/linux/lockdown.rs:handle_openat", "broker/src/linux/brokered_syscalls.rs:proxied_open_file", "ipc/src/linux/channel.rs:recv"]}
{"id": "C80", "title": "A bad path pointer yields EFAULT", "statement": "A trapped open, openat, access, stat or chdir with an unmapped path address fails with EFAULT as the kernel would, without killing the worker.", "quantifier": "every address and call", "why_tests_cant": "Requires crashing the test process.", "anchors": ["worker/src/linux/lockdown.rs:read_string_from_ptr", "worker/src/linux/lockdown.rs:sigsys_handler"]}
{"id": "C81", "title": "Waiting for the error pipe ends", "statement": "Worker::new never waits forever for the execve error pipe: once the worker's program has started, no descriptor of it keeps the pipe open.", "quantifier": "every configuration, policy, broker descriptor table and kernel answer", "why_tests_cant": "A hang depends on descriptor numbers and on redirections that only some programs use.", "anchors": ["broker/src/linux/process.rs", "linux-entrypoint/src/entry.rs:clone_entrypoint"]}
{"id": "C82", "title": "The reason given with a refusal is true", "statement": "A refusal by the rules says exactly what was asked (read, write, both, sharing modes) and what the rules give; a refusal for unsupported flags names exactly the unsupported bits.", "quantifier": "every rule history, path and request, Linux and Windows files and registry keys", "why_tests_cant": "Every combination of rights asked and held.", "anchors": ["policy/src/linux/policy.rs:check_file_open", "policy/src/windows/policy.rs:check_file_open", "policy/src/windows/policy.rs:check_reg_key_open"]}
{"id": "C83", "title": "Windows: a handle that can read needs a read rule", "statement": "A granted file request whose access mask includes read rights needs a read rule, and one that can change the file needs a write rule.", "quantifier": "every rule history, path and 32-bit value of each parameter", "why_tests_cant": "Six 32-bit parameters; depends on the creation disposition.", "anchors": ["policy/src/windows/policy.rs:check_file_open"]}
{"id": "C84", "title": "Windows: granted paths have no relative components", "statement": "A granted file request has a path whose components are neither empty nor '.' nor '..'.", "quantifier": "every rule history and path string", "why_tests_cant": "All path strings.", "anchors": ["policy/src/windows/path.rs:path_is_sane", "policy/src/windows/policy.rs:check_file_open"]}
{"id": "C85", "title": "Windows: the broker only makes calls the rules allow", "statement": "In release builds and enforcing mode every NtCreateFile, NtCreateKey and NtOpenKey of the broker is for a path and rights that the rules give the worker; refused requests cause no call; without rules there is none.", "quantifier": "every rule history, message sequence, kernel behaviour", "why_tests_cant": "Quantifies over hostile message sequences.", "anchors": ["broker/src/windows/brokered_syscalls.rs", "broker/src/windows/ipc_loop.rs"]}
{"id": "C86", "title": "Windows: one answer per request, in order", "statement": "Each well-formed request is answered exactly once before the next one is read; a granted one by the outcome of its system call with the new handle, which the broker closes again; ended sessions leave at most one request unanswered.", "quantifier": "every message sequence, policy and kernel behaviour", "why_tests_cant": "All sequences and failures.", "anchors": ["broker/src/windows/ipc_loop.rs", "ipc/src/windows/channel.rs:send"]}
{"id": "C87", "title": "Windows: messages survive the wire", "statement": "Requests, answers, handles and the policy are decoded as they were encoded; different messages have different bytes; hostile bytes decode to values of the message types or are rejected.", "quantifier": "every message and byte string", "why_tests_cant": "Unbounded strings and bytes.", "anchors": ["ipc-messages/src/windows/mod.rs", "ipc/src/windows/channel.rs"]}
{"id": "C88", "title": "Windows: hardening is only dropped when the system refuses it", "statement": "The process of a worker is created with every hardening attribute (AppContainer, less privileged AppContainer, handle list, child process policy, mitigations) at full strength, except those whose use the OS refused.", "quantifier": "every OS behaviour over the whole creation loop, every configuration", "why_tests_cant": "Each fallback depends on a chain of OS answers.", "anchors": ["broker/src/windows/process.rs"]}
{"id": "C89", "title": "Windows: the worker inherits permitted handles only", "statement": "The handles a created process inherits are exactly those the policy permits, whatever other inheritable handles the broker has.", "quantifier": "every OS behaviour, handle set and configuration", "why_tests_cant": "Depends on OS refusals and on all handles of the broker.", "anchors": ["broker/src/windows/process.rs", "broker/src/worker.rs"]}
{"id": "C90", "title": "Windows: no AppContainer profile is left behind", "statement": "After a failed start, and after the worker object is dropped, no profile exists that did not exist before; only profiles with the broker's own names are created and deleted.", "quantifier": "every OS behaviour and set of existing profiles", "why_tests_cant": "Leaks only show on fallback and failure paths.", "anchors": ["broker/src/windows/process.rs"]}
{"id": "C91", "title": "Windows: DLL permissions are widened only next to the program", "statement": "The pattern used to open DLLs to AppContainers names files in the directory of the program, for any path to it.", "quantifier": "every executable path", "why_tests_cant": "Unbounded paths.", "anchors": ["broker/src/windows/process.rs:ensure_dlls_have_appcontainer_delegations"]}
{"id": "C92", "title": "Windows: workers start in the configured directory", "statement": "If a working directory is configured, every process is created in it.", "quantifier": "every configuration and OS behaviour", "why_tests_cant": "All configurations.", "anchors": ["broker/src/windows/process.rs", "broker/src/process_config.rs"]}
{"id": "C93", "title": "Windows: a pipe name is found", "statement": "IpcChannel::new ends, with the first pipe name that is not in use, for any process id and any set of used names.", "quantifier": "every process id and OS behaviour", "why_tests_cant": "The set of used names is unbounded.", "anchors": ["ipc/src/windows/channel.rs:new"]}
{"id": "C94", "title": "Windows: hooking is complete and precise", "statement": "After hook_function ran for the hooked functions, every export and every live import of the loaded modules that led to one of them leads to its hook, directly or by a trampoline; every other entry is unchanged.", "quantifier": "every set of modules and tables, every address-space layout, 32 and 64 bits", "why_tests_cant": "Needs all address-space layouts; the trampoline offset is cut to 32 bits.", "anchors": ["worker/src/windows/lockdown.rs:hook_function"]}
{"id": "C95", "title": "Windows: a hooked call asks for what its caller asked for", "statement": "The message sent by the hooks of NtCreateFile, NtOpenFile and NtCreateKey makes the broker evaluate and execute the call with the caller's name and parameters.", "quantifier": "every UTF-16 name and parameter values", "why_tests_cant": "Unbounded names, including ill-formed UTF-16.", "anchors": ["worker/src/windows/lockdown.rs:hook_ntcreatefile", "worker/src/windows/lockdown.rs:hook_ntopenfile", "worker/src/windows/lockdown.rs:hook_ntcreatekey"]}
{"id": "C96", "title": "Windows: a hooked call returns as long as the broker answers", "statement": "If the broker serves requests, no hooked call panics.", "quantifier": "every parameter values and broker answer", "why_tests_cant": "Only long names of wide characters fail.", "anchors": ["worker/src/windows/lockdown.rs:send_recv", "worker/src/windows/lockdown.rs:hook_ntcreatefile"]}
{"id": "C97", "title": "Windows: a hooked call reports the outcome of the system call", "statement": "The caller gets the status, handle and information of the broker's system call, or STATUS_ACCESS_DENIED and a null handle; the IO_STATUS_BLOCK holds the same status.", "quantifier": "every parameter values, policy decision and kernel answer", "why_tests_cant": "All answers of the kernel.", "anchors": ["worker/src/windows/lockdown.rs:hook_ntcreatefile", "worker/src/windows/lockdown.rs:hook_ntcreatekey"]}
{"id": "C98", "title": "Windows: what cannot be passed on is refused", "statement": "A hooked call with null pointers, a root directory, extended attributes or a title index sends nothing and gives no handle; calls that differ in any parameter send different messages.", "quantifier": "every pair of calls", "why_tests_cant": "Pairs of arbitrary calls.", "anchors": ["worker/src/windows/lockdown.rs:hook_ntcreatefile", "worker/src/windows/lockdown.rs:hook_ntopenfile", "worker/src/windows/lockdown.rs:hook_ntcreatekey"]}
{"id": "C99", "title": "C API: a policy is what the successful calls asked for", "statement": "A policy built through the C interface grants exactly the opens that the rules of the successful calls on it allow, lets workers inherit exactly the handles those calls accepted and logs to exactly the callbacks added; failed calls and calls on other objects have no effect on it.", "quantifier": "every sequence of calls on any number of objects", "why_tests_cant": "Arbitrary interleavings of calls, failing ones included.", "anchors": ["bindings/C/broker/src/policy.rs"]}
{"id": "C100", "title": "C API: log callbacks get the request and the verdict unchanged", "statement": "For every request the broker evaluates, every C callback is called once with exactly that request and verdict, and the broker goes on serving.", "quantifier": "every request, policy and set of callbacks", "why_tests_cant": "Any path sent by a worker; one with a NUL byte makes the conversion panic.", "anchors": ["bindings/C/broker/src/policy.rs:iris_policy_add_log_callback", "bindings/C/broker/src/linux/mod.rs", "bindings/C/broker/src/windows/mod.rs"]}
{"id": "C101", "title": "C API: iris_worker_free kills the worker", "statement": "As documented, after iris_worker_free the worker's process is not running.", "quantifier": "every sequence of calls", "why_tests_cant": "Statement about a process that outlives the test.", "anchors": ["bindings/C/broker/src/broker.rs:iris_worker_free"]}
{"id": "C102", "title": "A worker starts with the files meant for it only", "statement": "Every file that a started worker holds is its end of the channel, a redirected stream, /dev/null in place of one, or a handle that the policy accepted; and every accepted handle that is still open and inheritable arrives.", "quantifier": "every policy, configuration, broker descriptor table and kernel behaviour", "why_tests_cant": "Depends on all descriptors open in the broker at that moment.", "anchors": ["broker/src/worker.rs:new", "broker/src/linux/process.rs", "linux-entrypoint/src/entry.rs"]}
{"id": "C103", "title": "A worker gets opens the user allowed only, end to end", "statement": "Every open(2) that the broker makes for a worker created by Worker::new with a user's policy is for a path and flags that the user's rules allow.", "quantifier": "every policy, configuration, kernel behaviour and sequence of messages from the worker", "why_tests_cant": "Unbounded message sequences through all layers.", "anchors": ["broker/src/worker.rs:new", "broker/src/linux/ipc_loop.rs", "policy/src/linux/policy.rs"]}
{"id": "C104", "title": "Windows: only DLLs next to the program and in the Windows directory change permissions", "statement": "Preparing a worker changes the access control lists of files found by the searches for *.dll in the program's folder and the Windows directory only, and each change only lets the two application package SIDs read and execute the file; all other files keep their lists.", "quantifier": "every directory content, access control list and OS behaviour", "why_tests_cant": "Any directory content and failure pattern.", "anchors": ["broker/src/windows/process.rs:ensure_dlls_have_appcontainer_delegations", "broker/src/windows/process.rs:ensure_dll_has_appcontainer_delegations"]}
{"id": "C105", "title": "Windows: after preparation AppContainers can load the DLLs", "statement": "When the OS carries out every operation, each DLL found can be read and executed by both application package SIDs.", "quantifier": "every access control list", "why_tests_cant": "Any list of entries: inherit-only and denying ones are not considered by the code.", "anchors": ["broker/src/windows/process.rs:ensure_dll_has_appcontainer_delegations"]}
{"id": "C106", "title": "Windows: preparing DLLs leaves nothing behind", "statement": "Starting a worker leaves no search handle open and no block of the OS allocated in the broker.", "quantifier": "every directory content and OS behaviour", "why_tests_cant": "Leaks do not change results.", "anchors": ["broker/src/windows/process.rs:ensure_dlls_have_appcontainer_delegations", "broker/src/windows/process.rs:get_sid_from_str"]}
{"id": "C107", "title": "Windows: a hooked call gets what the policy allows, end to end", "statement": "In a session of a worker with its broker each hooked call is answered in order: a call that cannot be passed on is refused without asking; any other gets the outcome of exactly the system call it asked for if the rules allow it, and access denied otherwise; a handle in the worker is always one for the object the broker opened for that call.", "quantifier": "every policy, sequence of hooked calls, kernel behaviour and result", "why_tests_cant": "Unbounded call sequences through the hooks, the encoding, the policy and the broker loop.", "anchors": ["worker/src/windows/lockdown.rs", "broker/src/windows/ipc_loop.rs", "policy/src/windows/policy.rs"]}
{"id": "C108", "title": "Windows: hooked calls do not stop a worker while the kernel does its part", "statement": "When writing to the pipe and duplicating handles succeed and the policy fits a message, the session starts, every hooked call returns, and the broker keeps serving with the handles it had.", "quantifier": "every policy and sequence of hooked calls", "why_tests_cant": "A long name makes the hook panic, which only specific lengths and characters show.", "anchors": ["worker/src/windows/lockdown.rs:send_recv", "broker/src/windows/ipc_loop.rs"]}
{"id": "C109", "title": "Windows: the two ends of a channel are joined to each other", "statement": "After IpcChannel::new the broker's end of the named pipe is connected to the end meant for the worker, and the call returns, whatever other processes do with the name.", "quantifier": "every order of other processes' serving and connecting to the name", "why_tests_cant": "Depends on another process acting in a short window.", "anchors": ["ipc/src/windows/channel.rs:new"]}
{"id": "C110", "title": "Windows: Worker::new leaks no handles", "statement": "If Worker::new succeeds the broker has exactly three new handles, its pipe end and two to the process; if it fails it has those it had before. No new handle stays inheritable.", "quantifier": "every configuration, policy, handle table and OS behaviour", "why_tests_cant": "Each failing system call on the way is an own path; leaks are silent.", "anchors": ["broker/src/worker.rs:new", "broker/src/windows/process.rs:new", "ipc/src/windows/channel.rs"]}
{"id": "C111", "title": "Windows: a failed Worker::new leaves no process running", "statement": "If Worker::new returns an error the set of running processes is as before.", "quantifier": "every configuration, policy, and OS behaviour", "why_tests_cant": "Needs failures after process creation, which tests cannot provoke.", "anchors": ["broker/src/worker.rs:new", "broker/src/windows/process.rs:new"]}
{"id": "C112", "title": "Windows: workers get only what is theirs", "statement": "A created worker process has its own pipe end at the handle its environment names, and otherwise only inheritable handles the broker had, limited to those wanted if it has a handle list; the broker's thread serves the other end with the policy and a handle to that very process. Over any sequence of workers none gets a handle of another worker or process.", "quantifier": "every configuration, policy, handle table, OS behaviour, and number of workers", "why_tests_cant": "Unbounded sequences of workers over arbitrary handle tables.", "anchors": ["broker/src/worker.rs:new", "broker/src/windows/process.rs:new", "ipc/src/windows/handle.rs", "ipc/src/windows/channel.rs"]}
{"id": "C113", "title": "A policy that can be built reaches the worker", "statement": "Whatever rules a policy has, a worker started with it gets it if the kernel does its part; with paths of up to about 64 KiB in total it does, with longer ones the broker cannot send it.", "quantifier": "every policy, on Linux and Windows", "why_tests_cant": "Only policies of a size no test uses show it.", "anchors": ["broker/src/windows/ipc_loop.rs", "broker/src/linux/ipc_loop.rs", "ipc/src/channel.rs", "ipc/src/lib.rs"]}
{"id": "C114", "title": "Workers leave the host's namespaces and have no ids but their own", "statement": "A started worker is in IPC, network, UTS, cgroup and mount namespaces of its own, sees the host name \"sandbox\" and a /proc of its own processes, and its user namespace knows only the broker's user and group, with setgroups off.", "quantifier": "every broker uid and gid, flags of clone, host, and every refusal of the kernel", "why_tests_cant": "Depends on the kernel's configuration and on who runs the broker; one test machine gives one combination.", "anchors": ["linux-entrypoint/src/entry.rs:clone_entrypoint", "broker/src/linux/process.rs:new"]}
{"id": "C115", "title": "Isolating a worker does not change the host", "statement": "Starting a worker leaves the host name and the mounts of the host as they were.", "quantifier": "every broker, flags of clone, and host", "why_tests_cant": "A test would have to run as root on a kernel without user namespaces, on a machine it may break.", "anchors": ["linux-entrypoint/src/entry.rs:clone_entrypoint", "broker/src/linux/process.rs:new"]}
{"id": "C116", "title": "Windows: hooking leaves page protections as they were", "statement": "After hooking every page has the protection it had, the pages added are those of trampolines and can only be read and executed, and no page is made both writable and executable on the way that was not so before.", "quantifier": "every set of modules and hooks, every layout of their tables, every answer of the OS", "why_tests_cant": "Depends on where the tables of loaded modules lie relative to page boundaries.", "anchors": ["worker/src/windows/lockdown.rs:hook_function", "worker/src/windows/lockdown.rs:hotpatch_u32", "worker/src/windows/lockdown.rs:unprotect_memory_area"]}
{"id": "C117", "title": "A worker's signals reach only the worker", "statement": "No sequence of system calls that the filter allows makes the kernel send a signal to a process other than the worker.", "quantifier": "every sequence of system calls and I/O events, every clone flag fallback outcome, every set of processes", "why_tests_cant": "Needs a sequence of calls, each harmless alone, and a kernel that refuses namespaces.", "anchors": ["broker/src/linux/seccomp.rs:compute_seccomp_filter", "broker/src/linux/process.rs:try_clone"]}
{"id": "C118", "title": "Windows: hooking changes table entries in memory and nothing else", "statement": "If the tables of the loaded modules lie in memory in use and do not overlap, and there is room for trampolines within 4 GiB above each module that exports a hooked function, then after hooking every table entry in memory that led to a hooked function leads to its hook, every other entry is as before, and no byte of memory in use outside the tables has changed.", "quantifier": "every memory, every set of modules and hooks, every layout of tables, both pointer widths", "why_tests_cant": "The effect on every byte of memory cannot be observed for every layout.", "anchors": ["worker/src/windows/lockdown.rs:hook_function", "worker/src/windows/lockdown.rs:hotpatch_u32", "worker/src/windows/lockdown.rs:write_trampoline"]}
{"id": "C119", "title": "Workers of one program do not get each other's files", "statement": "When one program runs several workers, the broker's reply to a worker goes to that worker's socket and carries no file that was opened for another worker, whatever order the serving threads and the program make their system calls in.", "quantifier": "every interleaving of any number of serving threads and the program at the granularity of system calls, every policy, every datagram, both word sizes", "why_tests_cant": "The leak needs two threads to meet in a window between two system calls, or a closed standard input.", "anchors": ["broker/src/linux/ipc_loop.rs:start_ipc_loop", "broker/src/linux/brokered_syscalls.rs:proxied_open_file", "ipc/src/linux/channel.rs:send", "bindings/C/broker/src/process_config.rs:iris_process_config_redirect_stdin"]}
{"id": "C120", "title": "Programs started beside workers inherit nothing of them", "statement": "A program that the broker's program starts by itself (fork and execve) while workers run, or after Worker::new has returned, inherits no channel and no file that belongs to a worker.", "quantifier": "every configuration, policy and first message; every interleaving of serving threads and the program", "why_tests_cant": "No test starts unrelated programs between two system calls of a serving thread and lists their descriptors.", "anchors": ["ipc/src/linux/channel.rs:new", "broker/src/worker.rs:Worker::new", "broker/src/linux/brokered_syscalls.rs:proxied_open_file"]}
{"id": "C121", "title": "Windows: a file rule is for the path it was given", "statement": "Adding a file rule on Windows enters the rule for the full path that the OS gives for the whole path passed in, and for no other path.", "quantifier": "every path, every pair of answers of GetFullPathNameW", "why_tests_cant": "The second call can see another current directory, and paths with a NUL are never tried.", "anchors": ["policy/src/windows/path.rs:derive_all_file_paths_from_path"]}
{"id": "C122", "title": "Starting a worker does not wait for other programs", "statement": "Process::new returns once the worker's program was started or failed to start, whatever other programs the embedding program starts meanwhile from other threads. (False in general: the error pipe is created without O_CLOEXEC and marked afterwards, so a program started in between keeps the write end and the read waits for that program to end.)", "quantifier": "for all kernel answers, policies, configurations, tables, and all lists of programs started at any moment of the call", "why_tests_cant": "the window lies between two adjacent system calls; tests start workers from one thread only", "anchors": ["broker/src/linux/process.rs:27-146"]}
{"id": "C123", "title": "On i686 the large-file flag of open changes nothing", "statement": "On i686, where O_LARGEFILE is a flag bit of its own, an open request with that bit is decided exactly as the same request without it, and the exact meaning of rules (C02) holds with that bit accepted and asking for no right.", "quantifier": "for all policies, rule lists, paths and flag words", "why_tests_cant": "depends on the target's libc constants; the test machine only ever compiles one of them", "anchors": ["policy/src/linux/policy.rs:8-18", "policy/src/linux/policy.rs:41-96"]}
{"id": "C124", "title": "A log message tells what was asked and what was answered", "statement": "The message logged for a request has level info exactly when the rules grant the request (in audit mode too); two messages with the same text stand for the same request and the same verdict, whatever the policies and whatever bytes the worker puts in its path; and each message is a single line, so that no line of the log is of the worker's making.", "quantifier": "for all policies, all pairs of requests with i32 flags and i64 words, all paths", "why_tests_cant": "tells apart all pairs of messages; whether a path can be chosen that makes two messages coincide, or that spells out a message of its own, is a question about all strings", "anchors": ["policy/src/policy.rs:238-265", "policy/src/linux/policy.rs:98-111", "policy/src/windows/policy.rs:350-387"]}
{"id": "C125", "title": "An object opened for a worker is at a place the rules allow", "statement": "Whenever the broker's open() succeeds, the object it opens (or the file it creates) is, at that moment, at a place in the file system (directory entries only, no links followed) that the rules allow for the flags of the request.", "quantifier": "for all policies, all worker messages, all file systems (changing at any time), all broker processes", "why_tests_cant": "quantifies over all file system shapes, including links and links that lead to objects without a name; a test has one file system", "anchors": ["broker/src/linux/brokered_syscalls.rs:8-35", "policy/src/linux/path.rs:5-19", "policy/src/linux/policy.rs:41-96"]}
{"id": "C126", "title": "The broker opens what the worker would have opened", "statement": "The object the broker opens for a worker is the object the worker's own open() of the same path and flags would have opened, had the kernel let it.", "quantifier": "for all policies, all worker messages, all file systems, all pairs of processes with the same root directory", "why_tests_cant": "needs links that lead elsewhere for each process (/proc/self and the like), wherever they are reached from", "anchors": ["broker/src/linux/brokered_syscalls.rs:8-35", "worker/src/linux/lockdown.rs:20-46"]}
{"id": "C127", "title": "The broker notices that a worker has ended", "statement": "Once a worker has ended, however it ended and whatever it sent before, nothing of the broker waits for it any more: Worker::new has returned, and the thread that served the worker has ended. (False in general: the worker's end of the channel is inheritable from its creation until the broker drops it, so a program that another thread starts in between keeps the channel open and the broker waits until that program ends.)", "quantifier": "for all configurations, policies, kernel answers, datagrams sent before the end, and moments at which other threads of the program start programs or workers", "why_tests_cant": "needs a worker that ends while another thread of the program starts a program at a certain moment", "anchors": ["broker/src/worker.rs:18-85", "broker/src/linux/ipc_loop.rs:14-56", "ipc/src/linux/channel.rs:16-39"]}
{"id": "C128", "title": "Worker::new on Windows returns a worker that has started", "statement": "On Windows, as on Linux (C53), when Worker::new returns a worker, that worker has asked for its policy and the policy was sent to it. (False: the handshake is done by the thread that Worker::new spawns, after it may have returned, and what the thread returns is lost; a worker that ended at once is returned all the same.)", "quantifier": "for all configurations, policies, answers of the OS, and everything the pipe can give, its end included", "why_tests_cant": "needs workers that fail in all possible ways at their start, on Windows", "anchors": ["broker/src/worker.rs:18-85", "broker/src/windows/ipc_loop.rs:9-107"]}
{"id": "C129", "title": "The broker notices that a worker has ended on Windows", "statement": "On Windows, once a worker has ended, however it ended and whatever it wrote before, the thread that serves it ends. (False in general: the worker's end of the pipe is inheritable from set_inheritable until the broker drops it, so a program that another thread starts in between with all inheritable handles keeps the pipe open.)", "quantifier": "for all configurations, policies, answers of the OS, messages written before the end, and moments at which other threads start programs", "why_tests_cant": "needs a worker that ends while another thread of the program starts a program at a certain moment", "anchors": ["broker/src/worker.rs:18-85", "ipc/src/windows/channel.rs:211-247", "broker/src/windows/ipc_loop.rs:9-107"]}
{"id": "C130", "title": "Ended workers leave the process table", "statement": "A program that ignores SIGCHLD, or that waits for its children with waitpid(-1, .., 0) until there are no more, keeps no process entry of an ended worker process, whether its Worker::new succeeded or failed. (False: the process is cloned without an exit signal, so one that ends before execve, as after every failed start, is neither reaped automatically nor found by such a wait, and the program is not told its pid.)", "quantifier": "for all histories of Worker::new calls, ends of workers and waits, with all configurations, policies and kernel answers", "why_tests_cant": "needs failed starts counted in the process table over a long history", "anchors": ["broker/src/linux/process.rs:96-146", "broker/src/linux/process.rs:148-178"]}
{"id": "C131", "title": "Files a worker creates itself are for its own user", "statement": "A file that a worker's program creates itself, before it lowers its privileges, has no permissions for group and others, and has those for its owner that the program asked for. (False: the mask is set to 0600, which takes away the owner's right to read and write and nothing else.)", "quantifier": "for all configurations, policies, kernel answers, modes and permission bits", "why_tests_cant": "quantifies over all modes and all configurations; the tests create no file before they lower their privileges", "anchors": ["linux-entrypoint/src/entry.rs:29-37"]}
{"id": "C132", "title": "A printed policy tells what the policy allows", "statement": "If two policies are printed alike (their Debug output), they have the same rules: the same audit flag, handles, files, directories and registry keys with the same rights. (False: the three rights to lock out others are all printed as block_readers, so on Windows two policies printed alike give different verdicts; and paths are printed as they are, so one path with a line break is printed as two rules.)", "quantifier": "for all policies, of any size, all paths and all orders in which the hash tables are walked", "why_tests_cant": "quantifies over pairs of policies and over all paths; no test looks at the printed policy", "anchors": ["policy/src/policy.rs:268-321"]}
{"id": "C133", "title": "Windows: adding a registry rule returns and cleans up", "statement": "Adding a registry rule returns Ok or an error whatever the OS answers, enters the rule for the key of the user the OS names, and leaves no token handle or memory behind. (False: when the OS refuses to tell the current user, the call panics although it could return an error.)", "quantifier": "for all paths, rights, policies and answers of the OS", "why_tests_cant": "needs an OS that refuses to open or query the token of the process", "anchors": ["policy/src/windows/path.rs:67-144", "policy/src/windows/policy.rs:229-272"]}
{"id": "C134", "title": "A start that fails does nothing in the program's name", "statement": "The new process of a Worker::new that fails runs none of the program's exit functions and writes none of the text that the program still had in its buffers. (False: it ends with exit(3), which runs a copy of every function registered with atexit and writes a copy of every stdio buffer; after a failed execve the text of the program's standard output goes to the file meant for the worker's output.)", "quantifier": "for all configurations, policies, kernel answers, buffers and exit functions of the program", "why_tests_cant": "needs a program with C buffers and exit functions and a start that fails", "anchors": ["linux-entrypoint/src/entry.rs:240-252", "linux-entrypoint/src/error.rs:20-40", "broker/src/linux/process.rs:96-146"]}
{"id": "C135", "title": "Windows: no two workers share an AppContainer", "statement": "Two workers that run at the same time on a machine are never in the same AppContainer. (False: names have the process id and a counter, and nothing ends workers with their program, so the first worker of a program that gets the process id of one that has ended is put into the AppContainer of the other one's first worker if that still runs; the existing profile is taken for a leftover. True for workers of one program, whatever its threads do, and of programs that run at the same time.)", "quantifier": "for all programs, threads, process ids and answers of the OS, over whole histories", "why_tests_cant": "needs process ids to be reused while a worker runs", "anchors": ["broker/src/windows/process.rs:100-345"]}
{"id": "C136", "title": "A trapped call changes errno only when it fails", "statement": "After a trapped system call made through the C library, errno is as errno(3) says: unchanged if the call succeeded, the code of the error if it failed. (False: the handler runs on the caller's thread and does not restore errno; it stores 0 before fstat and fchdir, so every stat that succeeds sets errno to 0, and under a filter every open of a relative path that succeeds leaves ENOSYS of a getcwd that was refused. True of access, of opens of absolute paths and of forwarded calls.)", "quantifier": "for all registers, policies, kernel answers and values of errno", "why_tests_cant": "needs to look at errno after calls that succeed", "anchors": ["worker/src/linux/lockdown.rs:198-381"]}
{"id": "C137", "title": "Starting a worker ends, whatever other threads do", "statement": "Starting a worker comes to an end whatever the other threads of the program are doing when the process is cloned; the entry point, as its comment says, takes none of the C library's locks. (False: cap_get_proc, cap_free and fdopendir allocate and exit(3) takes its own locks. clone copies the words of the locks but not the threads that hold them, so if another thread is allocating at the clone the new process waits for ever, keeps the error pipe, and Worker::new never returns. True when the locks are free.)", "quantifier": "for all policies, configurations, kernel answers and holders of the locks", "why_tests_cant": "needs another thread inside the allocator at the moment of the clone", "anchors": ["linux-entrypoint/src/entry.rs:26-28", "linux-entrypoint/src/entry.rs:155-173", "linux-entrypoint/src/capabilities.rs:48-116", "linux-entrypoint/src/error.rs:38", "broker/src/linux/process.rs:104-133"]}
{"id": "C138", "title": "Trapped calls return wherever they are made", "statement": "The threads of a worker can always go on until each came to the end of its program, wherever in the program the calls are made that trap. (False: the handler copies the path into a String on the thread of the program. If the call was made from inside the allocator, with its lock held, the handler waits for the lock its own thread holds, for ever; and so does every thread that allocates afterwards. True if calls from inside the allocator name no path: the exchange with the broker does not allocate.)", "quantifier": "for all numbers of threads, programs and schedules", "why_tests_cant": "needs an allocator that traps with its lock held, at a chosen moment", "anchors": ["worker/src/linux/lockdown.rs:186-192", "worker/src/linux/lockdown.rs:198-290", "worker/src/linux/lockdown.rs:292-337", "ipc/src/linux/channel.rs:52-212"]}
{"id": "C139", "title": "Signals that are handled do not end sessions", "statement": "Signals the program or the worker handles change neither what the broker answers nor what trapped calls return. (False: neither end looks at EINTR. A signal whose handler was installed without SA_RESTART ends the broker's thread that waits for a request, and with the next trapped call the worker; it ends a worker whose thread waits for an answer; and it makes Worker::new fail while the worker's program runs. True of signals that are ignored or handled with SA_RESTART.)", "quantifier": "for all sequences of signals and messages, policies, registers and kernel answers", "why_tests_cant": "needs a signal during the wait of a particular thread", "anchors": ["ipc/src/linux/channel.rs:142-153", "broker/src/linux/ipc_loop.rs:14-21", "broker/src/linux/ipc_loop.rs:44-60", "worker/src/linux/lockdown.rs:292-303"]}
{"id": "C140", "title": "Trapped calls are answered whatever the signal mask", "statement": "A system call that the filter traps is answered by the library's handler, whatever signals the thread blocks and whatever handlers it has. (False: the filter allows rt_sigprocmask and rt_sigaction, and nothing unblocks SIGSYS in a worker. A worker started by a thread that blocks SIGSYS, or a program that blocks all signals around a call, as the C library does when it starts a thread, is killed by the first trapped call; after rt_sigaction another handler answers. True of programs that leave SIGSYS alone, started by threads that do not block it.)", "quantifier": "for all filters, architectures, inherited masks and actions, and sequences of calls and handlers", "why_tests_cant": "depends on the mask of the thread that starts the worker and on what the C library does inside its functions", "anchors": ["broker/src/linux/seccomp.rs:34-35", "worker/src/linux/lockdown.rs:81-124", "broker/src/linux/process.rs:148-178", "linux-entrypoint/src/entry.rs:1-295"]}
{"id": "C141", "title": "Audit mode: calls that start threads, processes or programs work", "statement": "In audit mode, where nothing is to be blocked, a call that starts a thread, a process or a program does what it does without the library. (True of fork. False of the rest: a thread with a stack of its own leaves the trampoline for whatever address stands above the top of its stack; the caller of vfork returns to an address that its child left there; and a program started by the worker is killed by its first trapped call, since the filter stays and the handler is gone.)", "quantifier": "for all register and memory contents, stacks, both architectures, filters and sequences of calls", "why_tests_cant": "needs a worker in audit mode that starts threads and programs; the damage depends on what is on the stack", "anchors": ["worker/src/linux/lockdown.rs:407-418", "worker/src/linux/arch/x86_64/seccomp.rs:9-37", "worker/src/linux/arch/i686/seccomp.rs:5-26", "broker/src/linux/seccomp.rs:217-268"]}
{"id": "C142", "title": "A trapped stat stores what the kernel's stat stores", "statement": "A stat that is trapped and succeeds fills the program's buffer as the kernel would: every field where the program looks for it, and no byte outside the buffer. (True on x86_64. False on i686: the handler fills in the C library's structure of 88 bytes where the program has the kernel's of 64 bytes, so the program reads the number of links as the size, and 16 bytes after its buffer are overwritten by the times of the file.)", "quantifier": "for all files, policies, pointers and memory contents", "why_tests_cant": "needs an i686 worker that makes the raw system call and looks behind its buffer", "anchors": ["worker/src/linux/lockdown.rs:347-365", "worker/src/linux/lockdown.rs:245-251"]}
{"id": "C143", "title": "A trapped call is treated as the call that was made", "statement": "A system call that a worker on x86_64 makes by the conventions of any architecture that the filter covers is handled as that call: in audit mode the call that is re-run is the one that was made, with its arguments, and an open asks the broker for the path of the program. (True for calls of x86_64. False for calls made by int 0x80: the number is taken for one of x86_64 and the arguments are read from other registers, so unlink(2) is re-run as mprotect(2), open(2) is refused under every policy, and fork(2) opens the file whose name a register happens to point to. Calls of x32 are re-run right in audit mode, and all refused outside of it, paths that the policy allows included.)", "quantifier": "for all registers, policies, memory contents, and answers of the kernel", "why_tests_cant": "needs a program with hand-written instructions of another architecture, in every mode", "anchors": ["worker/src/linux/lockdown.rs:215-282", "worker/src/linux/arch/x86_64/seccomp.rs:1-49", "broker/src/linux/seccomp.rs:116-119"]}
{"id": "C144", "title": "Windows: the attributes of a new process are alive when they are read, and freed", "statement": "When CreateProcess reads the attributes of a worker, every address in the attribute list leads to a living value, which is the one meant for that attribute, and every slot is filled; every list is deleted once; and when the loop ends, all that was allocated for it has been freed. (The last part is false: the SID that CreateAppContainerProfile allocates is freed neither when a pass is given up nor after the worker was started.)", "quantifier": "for all answers of the OS, sets of handles, and numbers of passes", "why_tests_cant": "the addresses are raw pointers, which the compiler does not check; reading freed memory often works; a leak does not change results", "anchors": ["broker/src/windows/process.rs:281-533", "broker/src/windows/proc_thread_attribute_list.rs:12-92"]}
{"id": "C145", "title": "After the lockdown every thread of the worker is restricted", "statement": "When the lockdown of a worker returns, no thread of the process can make a call that the filter does not allow, neither one that ran before nor one that starts later. (True if the kernel has the system call seccomp and no other thread has filters of its own, and for programs with one thread. False otherwise: the library then goes on with a filter for the calling thread only, and every other thread, and every thread that it starts, does what it likes in the same memory.)", "quantifier": "for all sets of threads with any filters, and all interleavings with their actions", "why_tests_cant": "needs old kernels or libraries with filters of their own, and threads that run at the time", "anchors": ["worker/src/linux/lockdown.rs:150-184", "broker/src/linux/seccomp.rs:110-113"]}
{"id": "C146", "title": "No import escapes the hooks, whatever other threads load meanwhile", "statement": "When the library is through with hooking a system call in a worker on Windows, no bound entry of any import table leads to the original function, even if other threads load modules and bind imports at the same time, as the comment in the code claims. (True for the module that exports the function and those after it in the list, also if they are loaded meanwhile, as long as an address that is looked up is stored before anything else happens. False for modules before it, such as the main program, whose imports are gone through before the export is changed; and false in any module for an address that was looked up before and is stored afterwards. Such calls are never brought to the broker.)", "quantifier": "for all lists of modules, all tables, all interleavings of any number of threads, loads and bindings", "why_tests_cant": "needs a thread that loads a library in the short time between two steps of the walk over the modules", "anchors": ["worker/src/windows/lockdown.rs:154-401"]}
{"id": "C147", "title": "Calls between the library and Windows leave the stack as it was", "statement": "Every function of Windows that the library calls through a declaration of its own finds the arguments it was given, and after the call the stack pointer and the caller's part of the stack are what they were; the same for programs whose calls end in a hook. (True on x86_64, and for everything declared with the convention of the system. False on 32-bit Windows for the two functions that create and delete AppContainer profiles: they are declared with the convention of C but take their arguments off the stack themselves, so the stack pointer ends 24 or 4 bytes up in the caller's variables, and what the broker stores next replaces one of these.)", "quantifier": "for all arguments, stacks, memory contents, and all functions bodies that keep to their own part of the stack", "why_tests_cant": "compilers do not compare declarations with the functions found at run time, and the fault shows on 32-bit Windows only", "anchors": ["broker/src/windows/process.rs:109-117", "broker/src/windows/process.rs:155-171", "broker/src/windows/brokered_syscalls.rs:27-55", "worker/src/windows/lockdown.rs:93-102", "worker/src/windows/lockdown.rs:512-525"]}
{"id": "C148", "title": "C API: what a log callback is given lives while it runs and is freed afterwards", "statement": "While a log callback in C runs, the pointers it is given lead to the texts and bytes of the request and the verdict; before and after, the library keeps the contract of the allocator (no request for zero bytes, everything is given back once with the layout it was requested with), and no memory stays behind. (True on Linux for all texts without NULs. False on Windows for requests without extended attributes, that is for nearly all: the library asks for zero bytes, which the contract forbids. And a path with a NUL on Windows leaves the copy of the attributes behind.)", "quantifier": "for all requests, verdicts and states of the heap", "why_tests_cant": "requests for zero bytes and leaks go unnoticed without a checking allocator on Windows", "anchors": ["bindings/C/broker/src/policy.rs:274-346", "bindings/C/broker/src/linux/mod.rs:23-53", "bindings/C/broker/src/windows/mod.rs:27-97"]}
{"id": "C149", "title": "What the Windows broker opens for a worker is at a place the rules allow", "statement": "Every object that the broker's NtCreateFile opens for a worker is at a path the rules entitle the worker to: the object a rule names, or one below a directory that a rule names. True of names of fewer than 32768 units that are not opened by identifier, as long as no junction or symbolic link stands in front of the last component; letters of another case and short names do not matter. False in general: FILE_FLAG_OPEN_REPARSE_POINT only keeps the last component from being followed, so a junction inside an allowed directory leads to any other place; and the option FILE_OPEN_BY_FILE_ID is not checked, with which the name (data\\xyz, 16 bytes) is an identifier of any file on the volume.", "quantifier": "all kernels (files that change at any time included), all rules, all messages, all sizes", "why_tests_cant": "A test has one directory tree; it would need junctions at every depth, and identifiers that read like an allowed path.", "anchors": ["broker/src/windows/brokered_syscalls.rs:57-135", "policy/src/windows/policy.rs:120-232", "policy/src/policy.rs"]}
{"id": "C150", "title": "On Windows a request gets the same verdict under every spelling of the path", "statement": "A request that is granted for one name of an object is granted for every other name that Windows takes for the same object. True of names with the same components byte for byte (with or without a separator at the end). False: the broker opens with OBJ_CASE_INSENSITIVE and Windows also knows short names, but the policy compares bytes, so c:\\program files or C:\\PROGRA~1 is refused where C:\\Program Files is allowed.", "quantifier": "all directory trees without reparse points, all mappings to capital letters, all rules, all requests", "why_tests_cant": "The number of spellings of one path is exponential in its length, and the mapping to capital letters depends on the volume.", "anchors": ["policy/src/windows/policy.rs:120-232", "policy/src/policy.rs", "broker/src/windows/brokered_syscalls.rs:102"]}
{"id": "C151", "title": "Calls that return without the sandbox return in it, and the broker's thread ends after its worker", "statement": "If the calls of a worker's threads all return without the sandbox and the rules allow them, then they return in the sandbox; and the broker's thread that serves a worker ends once the worker has. True when for each FIFO that is opened for reading or writing only, somebody outside the worker holds the other end. False: the broker's one thread per worker waits in open(2), so two threads of a worker that meet at a FIFO stop each other for ever, and access(2) of a FIFO, which never waits, stops the worker because it is turned into an open. Until a program outside opens the other end, no request of the worker is answered, and the broker's thread outlives the worker. O_NONBLOCK, which would avoid it, is always refused.", "quantifier": "all worker programs and thread counts, all sets of FIFOs, all rules, all interleavings, workers killed at any point", "why_tests_cant": "A hang shows only in the interleavings and file types that were tried, and that it lasts for ever cannot be observed.", "anchors": ["broker/src/linux/brokered_syscalls.rs:8-36", "broker/src/linux/ipc_loop.rs:44-72", "worker/src/linux/lockdown.rs:292-303", "worker/src/linux/lockdown.rs:339-345"]}
{"id": "C152", "title": "The lowering function may be called at any time by any thread", "statement": "However often and from however many threads the lowering function is called, at most one call returns, and the trapped calls that follow each get their own answer. That at most one call returns is true for all interleavings. That trapped calls get their answers is true when the calls of the function do not overlap: all later ones panic at the missing variable and change nothing. False when they overlap: a second thread that read the variable before it was removed replaces the static pointer and panics with the new lock in its hands, so that every later trapped call of the first thread panics; or it takes the answer to a trapped call of the first thread. Without the variable, or with one that is no descriptor number, the function panics and does nothing else.", "quantifier": "all numbers of threads, all numbers of calls, all contents of the variable, all interleavings", "why_tests_cant": "The window between reading and removing the variable is a few instructions wide, and tests call the function once.", "anchors": ["worker/src/lib.rs:10-27", "worker/src/linux/lockdown.rs:32-75", "worker/src/linux/lockdown.rs:292-303", "bindings/C/worker/src/lib.rs:3-13", "broker/src/linux/ipc_loop.rs:22-72"]}
{"id": "C153", "title": "Trapped calls leave record locks alone", "statement": "open, access, stat and chdir change no record lock (fcntl F_SETLK) of any process, as without the sandbox. True of stat and chdir, which use path-only descriptors, of refused requests, and of locks of other processes than the broker and the worker. False: POSIX lets go of all locks a process has on a file when it closes any descriptor of that file. access(2) of a file opens and closes it in the worker, so the worker loses its own locks on it; and every granted open makes the broker open and close the file, so the program around the broker loses its locks, and programs that were kept out get in.", "quantifier": "all files, locks, rules and sequences of trapped calls", "why_tests_cant": "A lock that is lost shows only when a third program takes it at that moment; tests do not combine locks with trapped calls.", "anchors": ["broker/src/linux/brokered_syscalls.rs:8-36", "broker/src/linux/ipc_loop.rs:56-71", "worker/src/linux/lockdown.rs:37-48", "worker/src/linux/lockdown.rs:339-381", "ipc/src/linux/handle.rs"]}
{"id": "C154", "title": "Opening files for a worker does not change the broker's session", "statement": "A worker's calls change no session's controlling terminal, as they would not without the sandbox, because a worker leads no session. True when the broker leads no session, or its session already has a controlling terminal. False: the broker opens in its own process and never with O_NOCTTY (the policy refuses that flag), so a broker that runs as a daemon gets a terminal it opens for a worker as its controlling terminal, whose hangup and keyboard signals then reach it.", "quantifier": "all sessions, terminals, rules and sequences of trapped calls", "why_tests_cant": "Tests run in a session that has a terminal or none at all, and do not look at the broker's own state after a request.", "anchors": ["broker/src/linux/brokered_syscalls.rs:8-36", "policy/src/linux/policy.rs", "worker/src/linux/lockdown.rs:305-345"]}
{"id": "C155", "title": "On Linux a worker blocks other programs only where a lock rule lets it", "statement": "A worker takes a record lock on a file only if the rules for that file have the lock right: one that keeps writers out for a shared lock, one that keeps readers out too for an exclusive lock. False: the lock rights are not looked at on Linux, and the filter allows fcntl whatever its arguments, so a worker with a read rule keeps cooperating writers out. True: an exclusive lock needs a write rule for the file, a shared one a read rule.", "quantifier": "all rules, files, sequences of opens, duplications, locks and closes of the worker, all locks of other processes", "why_tests_cant": "Needs every sequence of calls that leads to a lock; tests of the rules ask the policy and do not lock.", "anchors": ["policy/src/policy.rs:144-191", "policy/src/linux/policy.rs", "broker/src/linux/seccomp.rs:10-100", "bindings/C/broker/src/policy.rs:143-175"]}
{"id": "C156", "title": "A worker's own use of descriptors leaves its trapped calls working", "statement": "Trapped calls are answered whatever the worker does with its descriptors. True for a program that closes, duplicates and overwrites only numbers it started with or was given by calls: the channel's number is never given to it, so its channel stays. False for programs that close all descriptors above the standard ones, as daemons and libraries do: the next trapped call panics; and if the number has been given to a socket of the program since, the request is written into that socket and the call never ends.", "quantifier": "all numbers of the channel, descriptor tables and sequences of close, close_range, dup, dup2, socketpair and trapped opens", "why_tests_cant": "Tests make few calls that take or free descriptor numbers; which object has a number depends on the whole history.", "anchors": ["worker/src/lib.rs:13-24", "worker/src/linux/lockdown.rs:292-303", "broker/src/linux/seccomp.rs:26", "broker/src/linux/seccomp.rs:42", "broker/src/linux/seccomp.rs:78-88"]}
{"id": "C157", "title": "What the project's file tests check for one file holds for every file", "statement": "The project's tests try a table of opens on one temporary file under the four policies that make it readable, writable, both or neither, and expect a descriptor or EACCES for each. The same holds for every canonical path: the verdict is the one of the table, open and openat (with any directory descriptor) give a descriptor of what the broker opened, or the error its open met, when the table says the open should work, and EACCES without any open otherwise; on Windows the verdicts of the four access masks are those of the table for every drive-absolute path. The assertions of the test of policy decisions hold of the model one by one, and the two kinds of answer they check are characterised for all rules, paths and flags.", "quantifier": "all canonical paths, the four policies, all entries of the tables, all register contents and kernel answers; all rules, paths and flags for the two kinds of verdict", "why_tests_cant": "The tests run each entry on one randomly named file; they cannot tell whether the answer depends on the name.", "anchors": ["tests/tests/file_path_open.rs:60-115", "tests/src/bin/file_path_open_worker.rs:8-151", "tests/src/bin/file_path_open_worker.rs:373-409", "tests/tests/unix_file_path_policy_decision.rs:1-162", "policy/src/linux/policy.rs:41-96", "policy/src/windows/policy.rs:120-260"]}
{"id": "C158", "title": "Once the lowering function has returned, all of the worker's processes are restricted", "statement": "When the lowering function has returned in a worker, each of its processes is filtered or has ended, and each trapped call gets its own answer. True for programs that start no process before they call the function: afterwards they cannot. Also true for all programs: the function returns at most once in all processes together, and at most one process is ever filtered. False: a process forked before stays unfiltered for ever, because the broker refuses a second handshake; and if it tries one on the shared socket it can take the answer of a trapped call, with its descriptor, while that call gets the refusal.", "quantifier": "all programs that fork before the lowering, all interleavings of their processes and the broker", "why_tests_cant": "The tests' workers start no process; the crossing needs a certain interleaving.", "anchors": ["worker/src/lib.rs:10-27", "worker/src/linux/lockdown.rs:47-75", "worker/src/linux/lockdown.rs:292-303", "broker/src/linux/ipc_loop.rs:22-72"]}
{"id": "C159", "title": "One worker does not end another worker's session", "statement": "The session of a worker that passes no descriptors and reads each answer before it asks again is not ended by what other workers do. True if all workers behave so and there are not more of them than the descriptor limit, and for any workers if the broker has CAP_SYS_RESOURCE or CAP_SYS_ADMIN. False otherwise: the kernel counts the descriptors on their way in sockets per user, and refuses more than RLIMIT_NOFILE; the filter lets a worker send descriptors into sockets of its own, and a worker may leave its answers unread; once the count is exceeded the broker's answer to any worker's granted open fails with ETOOMANYREFS, which ends that worker's session, so that its next trapped call panics.", "quantifier": "all limits, numbers of workers and interleavings of sends, reads and opens", "why_tests_cant": "Tests run one worker at a time, and none holds descriptors in sockets.", "anchors": ["ipc/src/linux/messagepipe.rs:165-221", "broker/src/linux/ipc_loop.rs:68-72", "broker/src/linux/seccomp.rs:14", "broker/src/linux/seccomp.rs:88"]}
{"id": "C160", "title": "What a worker does with its descriptors is not seen on the program's own", "statement": "Offset and status flags of the program's descriptors stay as they are whatever a worker does. True of each description the worker was not given: every brokered open makes a new one, which the program does not share. The contents of a file change only if the worker was given a description that can write it or a rule lets it write there, and what it reads comes only from files it was given to read or a rule lets it read. False for redirected streams and inherited handles: these are the program's own descriptions, and the filter allows fcntl and lseek with any arguments, so a worker can make the program's descriptor non-blocking; and a file given for appending only can be overwritten or cut, since the worker can clear the append flag, seek or call ftruncate.", "quantifier": "all policies, starting descriptors, file contents and sequences of open, dup, close, fcntl, lseek, read, write and ftruncate", "why_tests_cant": "The tests' workers print to their streams; none changes the flags or the offset of one and looks at the program's side.", "anchors": ["broker/src/linux/seccomp.rs:9-26", "broker/src/linux/seccomp.rs:78-81", "linux-entrypoint/src/entry.rs:230-240", "broker/src/linux/process.rs:66-95", "broker/src/linux/brokered_syscalls.rs:7-40", "broker/src/process_config.rs:58-83"]}
{"id": "C161", "title": "Windows: hooking finds the tables the loader uses", "statement": "For every process laid out as Windows does (process environment block, the loader's list, PE headers), the structures declared by the library lead to each loaded module in order, to its export address table and to its import descriptors, on x86_64 and x86 and whatever the packing of the header structures. True if each module has at least two data directories and none that is present has size zero. False otherwise: the number of directories is not looked at, so with fewer than two the code takes what follows (a section's name) for the address of the import directory; and a directory of size zero is skipped, though the loader binds its imports.", "quantifier": "all memories, lists of modules, headers, export tables and import descriptors", "why_tests_cant": "Tests hook the few modules of one test program, made by one linker.", "anchors": ["worker/src/windows/lockdown.rs:56-93", "worker/src/windows/lockdown.rs:147-222", "worker/src/windows/lockdown.rs:355-372"]}
{"id": "C162", "title": "Workers do not get each other's files by passing descriptors", "statement": "When one program runs several workers with different policies, a worker has descriptors that can read or write a file only if the file was given to it or its own rules allow it. True if no two workers were given ends of the same socket, and none a datagram socket with a name (see C172). With workers in groups, such that only workers of one group share sockets, what a worker can read or write some worker of its group may. False if two workers share a socket: the filter allows sendmsg and recvmsg with any arguments, so the worker that may open a file can pass the descriptor to the one that may not.", "quantifier": "all policies of any number of workers, all initial descriptors, all sequences of opens, socket pairs, sends, receives and closes of the workers in any order", "why_tests_cant": "Needs all ways in which descriptors and sockets can travel between any number of workers; a test has one worker and one connection.", "anchors": ["broker/src/linux/seccomp.rs:8-92", "linux-entrypoint/src/entry.rs:230-255", "broker/src/linux/process.rs:60-95", "broker/src/linux/ipc_loop.rs:45-72", "broker/src/linux/brokered_syscalls.rs:9-30"]}
{"id": "C163", "title": "The broker's answers tell a worker nothing about files outside its rules", "statement": "Two file systems that are the same at every place the rules cover give a worker the same answers, whatever it asks. True of all the broker does if the ways to the covered places are the same too and have no symbolic links; opens the rules do not allow have no influence at all. False in general: the broker follows links out of an allowed directory, so its answer tells whether the file they lead to exists; and for a covered path whose parent is not covered the answer is ENOTDIR or ENOENT, which tells whether a file is in the place of the parent.", "quantifier": "all rules, pairs of file systems changing over time in any way, request sequences, kernel answers to sends, descriptor tables", "why_tests_cant": "Compares the sessions of pairs of file systems for all of them; a test sees one file system and one answer at a time.", "anchors": ["broker/src/linux/brokered_syscalls.rs:8-35", "broker/src/linux/ipc_loop.rs:43-74", "policy/src/linux/policy.rs:5-83"]}
{"id": "C164", "title": "Windows: the broker's answers tell a worker nothing about files outside its rules", "statement": "Two machines that are the same at every place the rules cover give a worker the same answers, whatever it asks. True of all the broker does if the ways of the names the rules allow are the same too and have no reparse points, and the identifiers of files lead to the same objects; calls the rules do not allow have no influence at all. False in general: for a name behind a junction in an allowed directory the answer tells whether the file it leads to exists, and without junctions so do opens by file identifier, since an identifier may stand for any file of the volume.", "quantifier": "all rules, pairs of machines changing over time in any way, request sequences, answers to duplicating and sending, handle tables; release builds", "why_tests_cant": "Compares the sessions of pairs of machines for all of them; a test sees one machine and one answer at a time.", "anchors": ["broker/src/windows/brokered_syscalls.rs:70-230", "broker/src/windows/ipc_loop.rs:17-101", "policy/src/windows/policy.rs:60-140"]}
{"id": "C165", "title": "An audit run tells which rules a worker needs", "statement": "Take a Linux policy with a log callback and run a worker with it in audit mode. For every open the callback was told is refused, add a rule for that very path: reading if the flags ask for it (or for nothing but the path), writing if they ask for it. Run the same requests again with the completed policy, enforced. If every request has supported flags and a canonical absolute path, the second run does exactly what the first did: the same opens with the same answers, the same replies with the same files, the same end. And the added rules are minimal: every right the completed policy has on some path and the first had not is one that a refused request of the run needs on that path. For other requests (a relative path, `.` or `..` components, an unsupported flag such as O_NONBLOCK) the audit run serves them but no rules whatsoever will.", "quantifier": "all policies, callbacks, environments whose answers do not depend on the callbacks, request streams, descriptor tables", "why_tests_cant": "a test compares the two runs of one program; that the log is complete and the rules are neither too few nor too many is a statement on all request streams", "anchors": ["README.md:2", "policy/src/policy.rs:46-50", "policy/src/linux/policy.rs:27-39", "policy/src/linux/policy.rs:41-96", "broker/src/linux/brokered_syscalls.rs:8-35"]}
{"id": "C166", "title": "An audit run on Windows tells which rules a worker needs", "statement": "Take a Windows policy with a log callback and let the broker thread serve a worker's requests in audit mode (release build). For every request the callback was told is refused, add the rules it asks for: for a file, reading, writing and the locks its sharing mode implies, on that very path; for a key, reading or writing of the HKEY_LOCAL_MACHINE or HKEY_USERS name of that key (both when it has bits that only observe a key). Serve the same requests with the completed policy, enforced. If every request is supported and names a drive path in the form GetFullPathNameW gives, or a key under one of the two hives, the second run does exactly what the first did: the same system calls with the same answers, the same messages, the same handles, the same end. And the added rules are minimal: a right on a file the first policy had not is one a refused request asks for on that file; for keys the same at or below the named key. A file that is not on a drive letter (a named pipe, a device) is opened in audit mode and cannot be allowed by any rules.", "quantifier": "all policies, callbacks, kernels whose answers do not depend on the callbacks, message streams, handle tables, answers of GetFullPathNameW", "why_tests_cant": "a test compares the two runs of one program; that the log is complete and the rules are neither too few nor too many is a statement on all message streams", "anchors": ["README.md:2", "policy/src/windows/policy.rs:88-119", "policy/src/windows/policy.rs:121-241", "policy/src/windows/policy.rs:294-345", "policy/src/windows/path.rs:26-92", "broker/src/windows/brokered_syscalls.rs:57-237"]}
{"id": "C167", "title": "The number of a worker names that worker", "statement": "The handles the broker sends on Windows are duplicated into the worker the channel belongs to, which is found by its process number after the start, even if the worker has ended by then and any other processes were started and have ended; and the number that Worker::get_pid returns is the worker's and nobody else's as long as the Worker exists or its thread runs. (On Windows false if a thread of the library closes the worker's handle because of another worker's message, C69; true otherwise. On Linux false if the program waits for its children or ignores SIGCHLD; true otherwise.)", "quantifier": "for all sequences of process starts and ends, handles opened and closed, workers started and dropped, for all choices of numbers and handle values", "why_tests_cant": "the number is looked up again after the start, and numbers are reused only after many starts", "anchors": ["ipc/src/windows/channel.rs:136-154", "broker/src/worker.rs:53-90", "broker/src/windows/process.rs:157-161", "broker/src/linux/process.rs:143-145"]}
{"id": "C168", "title": "Windows: programs and workers started beside a worker inherit nothing of it", "statement": "Whatever the threads of the program do meanwhile, no process but the worker inherits its end of the pipe, a handle to its process, the broker's end, or a file opened for it; and once Worker::new has returned and the worker has ended nobody has its end of the pipe, so that the broker notices. (False: between set_inheritable and the drop of the handle every process started with plain inheritance gets the end, also a worker for which the system refused the list of handles. True if every process is started with a list or outside those moments.)", "quantifier": "for all interleavings of any number of threads that start workers, serve workers, and open, mark, close handles and start programs, at the granularity of system calls", "why_tests_cant": "the moment lies between two calls of one thread and needs another thread", "anchors": ["broker/src/worker.rs:18-85", "ipc/src/windows/handle.rs:24-44", "ipc/src/windows/channel.rs:33-154", "broker/src/windows/process.rs:427-535", "broker/src/windows/brokered_syscalls.rs:57-237"]}
{"id": "C169", "title": "A worker's leases make others wait only where a lock rule lets it", "statement": "On Linux a worker takes a lease (fcntl F_SETLEASE) on a file only if the rules for that file have the lock rights: one that keeps writers out for a read lease, one that keeps readers out too for a write lease. (False: the filter allows fcntl whatever its arguments and the lock rights are not looked at, so a worker with a read rule makes every other program that opens the file wait, even for reading. True: the file must be the user's own with a read or write rule, and nobody waits longer than the system's lease-break-time however the worker goes on.)", "quantifier": "for all rules, files, owners, sequences of opens, leases, closes and ticks of the worker and all other processes", "why_tests_cant": "needs sequences of calls of several processes over time; no test takes a lease", "anchors": ["broker/src/linux/seccomp.rs:10-100", "policy/src/policy.rs:144-191", "worker/src/linux/lockdown.rs:305-337"]}
{"id": "C170", "title": "What a new worker is handed is alive when it is read, and freed once", "statement": "On Linux, whatever the configuration, whatever the system answers and whatever other threads of the program do with their own memory meanwhile: when clone() makes a process, reading through the pointers of its parameters, in the memory that process has, gives exactly the configured program path, arguments, environment, descriptors, id maps and streams, and its stack is there. When OSSandboxedProcess::new is over (with a value, an error or a panic), every block it allocated has been freed exactly once, except the stack, which belongs to the value returned; nothing is freed that is not allocated. (Found false when all three clone() calls fail: the parameters leaked with Box::leak are never freed, one block for each such start.)", "quantifier": "for all configurations, memories, allocators, activity of other threads and answers of the system", "why_tests_cant": "Use after free and leaks do not change what tests see most of the time; whether memory is reused in between depends on other threads and on the allocator, and failing clone() calls need a system out of processes.", "anchors": ["broker/src/linux/process.rs:27-141", "broker/src/linux/process.rs:148-178", "linux-entrypoint/src/entry.rs:9-30", "linux-entrypoint/src/entry.rs:201-247"]}
{"id": "C171", "title": "Windows: a worker keeps others out of a file only where a lock rule lets it", "statement": "On Windows, a program whose open shares the file for everything is refused because of a worker's open handles only if a lock rule for that file lets the worker keep out what the program asks for (readers, writers or deleters), and a read or write of a program is refused because of the worker only if such a rule lets it keep readers or writers out. True of share access: whatever is opened, closed and locked in whatever order, a worker keeps out sharing programs only as its lock rules say, and keeps nobody out of a file no rule covers. False of byte-range locks: any handle that can read or write can lock ranges exclusively, so a worker that may only read a file makes every read of it by other programs fail for as long as it likes. True: for that it needs a read or write rule for the file.", "quantifier": "for all policies, requests, sequences of opens, locks and closes of the worker and of other programs", "why_tests_cant": "Share conflicts depend on the pair of access and share masks of every pair of handles in the system; tests open one or two files and take no byte-range locks.", "anchors": ["policy/src/windows/policy.rs:121-241", "policy/src/policy.rs:144-195"]}
{"id": "C172", "title": "Messages of a Linux worker go only to what it is connected with", "statement": "Whatever a worker and all other programs of the machine do, a message the worker sends arrives only at a socket that is connected to one the worker was given, made or accepted. False: the filter allows socketpair and sendmsg with any arguments, and one end of a datagram pair sends to any name written in the message, so a worker without any rule sends data and descriptors to every datagram socket in the file system which its user may write to (the system's journal, for one), in whatever namespaces. True otherwise: all other messages go to connected sockets, the worker connects no socket itself, and only sockets it was given or accepted on such send to the network. In a network namespace of its own, a worker that was given no datagram socket reaches by name only sockets in the file system; and if the filter did not allow socketpair, the statement would hold for it.", "quantifier": "all worlds of sockets, all sequences of socket calls of the worker with any arguments on any architecture, interleaved with any calls of other programs and connections from the network; all file permissions; every answer of libseccomp", "why_tests_cant": "A test tries connect and sees it fail; that no sequence of the allowed calls gets a message out needs all of them.", "anchors": ["broker/src/linux/seccomp.rs:8-93", "broker/src/linux/seccomp.rs:108-190", "linux-entrypoint/src/entry.rs:100-110", "linux-entrypoint/src/entry.rs:230-255"]}
{"id": "C173", "title": "A Windows worker changes only names it may write", "statement": "Whatever a worker and other programs do, the places of the file system at which another file is found after a step of the worker are places a rule lets it write, and files that were there before are read only where a rule lets them be read. False: a handle for writing may have DELETE, with which NT renames the file within its directory without asking the broker. A worker that may write just C:\\a\\x makes it C:\\a\\y or any other free name beside; one that may write the directory C:\\a renames the directory itself. And one that may write a directory in which it may read a single file renames the other files to that name and reads them. True otherwise: places that change are those that may be written or are, or are below, another name in the directory of the very place of a rule for writing; without such rules nothing changes; and where all names of the directories that may be changed are read alike, only what a rule names is read.", "quantifier": "all policies, volumes without hard links and reparse points, and all sequences of opens with any arguments, renames to names in the same directory, deletions and closes by the worker, interleaved with files made and removed by other programs", "why_tests_cant": "Tests open files and look at the handle; what is done with a handle later is not seen by the library at all.", "anchors": ["policy/src/windows/policy.rs:121-241", "broker/src/windows/brokered_syscalls.rs:57-128", "broker/src/windows/ipc_loop.rs:51-72", "worker/src/windows/lockdown.rs:763-769"]}
{"id": "C174", "title": "A name means the same file in newfstatat and in open", "statement": "When a worker under its filter opens a file by a UTF-8 name and gets a descriptor, newfstatat of the same name with the current directory as base, which the filter lets the kernel carry out for the worker, describes the file that was opened (or says ENOENT if open made a new file), the files staying the same. Holds for absolute names if the links on the way lead the broker and the worker to the same place, and for relative names if the worker was started in the root directory. False for relative names otherwise: the library cannot find out the current directory under its own filter and asks for the name in the root directory, so newfstatat(\"f\") in /home describes /home/f and open(\"f\") opens /f.", "quantifier": "all worlds of worker and broker, configured policies, file systems with links, working directories, names, open flags, registers", "why_tests_cant": "needs all file systems, working directories and policies; tests that are started in the root directory, or that use absolute names, do not see the difference", "anchors": ["worker/src/linux/lockdown.rs:305-337", "worker/src/linux/lockdown.rs:198-290", "broker/src/linux/seccomp.rs:8-93", "broker/src/linux/brokered_syscalls.rs:5-40"]}
{"id": "C175", "title": "On i686 the broker serves requests with the large-file flag", "statement": "On i686, where O_LARGEFILE is a flag of its own that 32-bit programs set for nearly every file, the broker's loop answers the requests of a session in order, each exactly once and as the rules say: an open request with the flag is opened, with its flags unchanged, exactly when the rules allow the request without the flag; every other request is answered with an error and nothing is opened. The flag needs no right.", "quantifier": "all policies, sequences of datagrams and other socket events, paths, flags, answers of open and sendmsg, descriptor tables", "why_tests_cant": "needs all policies, flags and sessions; the project's tests run on the architecture they were built for and do not set the flag", "anchors": ["policy/src/linux/policy.rs:8-96", "broker/src/linux/brokered_syscalls.rs:8-46", "broker/src/linux/ipc_loop.rs:45-74"]}
{"id": "C176", "title": "On i686 programs open files with the large-file flag through the sandbox", "statement": "On i686 an intercepted open or openat of an absolute path, with O_LARGEFILE or without, is passed on to the broker with the path and the flags as they are, and the program gets a descriptor of the file exactly when the rules allow the request without the flag and the broker could open it, and otherwise an error and no descriptor. Intercepted calls without the flag are handled exactly as on x86_64.", "quantifier": "all policies, environments, register values, paths, flags, descriptor tables and answers of the broker's open", "why_tests_cant": "needs all policies, paths and flags; the project's tests do not set the flag and do not run on i686", "anchors": ["worker/src/linux/lockdown.rs:198-337", "policy/src/linux/policy.rs:8-96", "broker/src/linux/brokered_syscalls.rs:8-46"]}
{"id": "C177", "title": "Functions on files work on i686 as on x86_64", "statement": "A function of the C library on files that works in a worker on x86_64, because the filter lets its system call through or the handler asks the broker for the file, works in a worker on i686. (True of open, access, chdir, fstat, lseek, mmap, mprotect, read, write and others. False of stat, fcntl, ftruncate and sendfile: with 64-bit offsets they are the calls stat64, fcntl64, ftruncate64 and sendfile64 there, which are not in the list and not handled, so every one of them fails with ENOSYS whatever the rules say.)", "quantifier": "all process numbers, answers of libseccomp that know the names, arguments, policies, environments, register values", "why_tests_cant": "the project's tests run on one architecture; the filter and the handler would have to be compared for every function and every argument", "anchors": ["broker/src/linux/seccomp.rs:8-187", "worker/src/linux/lockdown.rs:198-290"]}
