{
 "claims": [
  {
   "property": "C01",
   "status": "proved",
   "theorems": [
    "C01_deny_by_default"
   ],
   "note": ""
  },
  {
   "property": "C02",
   "status": "proved",
   "theorems": [
    "C02_exact_grant",
    "C02_syscalls_never_granted"
   ],
   "note": ""
  },
  {
   "property": "C03",
   "status": "proved",
   "theorems": [
    "C03_no_sibling_prefix",
    "C03_no_parent"
   ],
   "note": ""
  },
  {
   "property": "C04",
   "status": "proved",
   "theorems": [
    "C04_granted_path_canonical"
   ],
   "note": ""
  },
  {
   "property": "C05",
   "status": "proved",
   "theorems": [
    "C05_monotone",
    "C05_order_independent",
    "C05_idempotent"
   ],
   "note": ""
  },
  {
   "property": "C06",
   "status": "proved",
   "theorems": [
    "C06_no_interference",
    "C06_rejected_rules"
   ],
   "note": ""
  },
  {
   "property": "C07",
   "status": "proved",
   "theorems": [
    "C07_no_unauthorised_modification"
   ],
   "note": ""
  },
  {
   "property": "C08",
   "status": "proved",
   "theorems": [
    "C08_no_unauthorised_read"
   ],
   "note": ""
  },
  {
   "property": "C09",
   "status": "proved",
   "theorems": [
    "C09_unsupported_flags_refused"
   ],
   "note": ""
  },
  {
   "property": "C10",
   "status": "partial",
   "theorems": [
    "C10_root_rule_refuted",
    "C10_root_rule_grants_nothing",
    "C10_dir_rule_covers_subtree_partial"
   ],
   "note": "Refuted for the root: a rule on \"/\" is accepted and grants nothing. Proved for every other directory."
  },
  {
   "property": "C11",
   "status": "proved",
   "theorems": [
    "C11_lock_rules_grant_nothing"
   ],
   "note": ""
  },
  {
   "property": "C12",
   "status": "proved",
   "theorems": [
    "C12_audit_mode"
   ],
   "note": ""
  },
  {
   "property": "C13",
   "status": "partial",
   "theorems": [
    "C13_callbacks_once_in_order",
    "C13_denials_only_refuted"
   ],
   "note": "Each callback is called exactly once, in registration order. The part saying that only denials are reported is refuted: callbacks also run for granted requests."
  },
  {
   "property": "C14",
   "status": "proved",
   "theorems": [
    "C14_runtime_policy"
   ],
   "note": ""
  },
  {
   "property": "C15",
   "status": "proved",
   "theorems": [
    "C15_inherited_handles",
    "C15_rejected_handles"
   ],
   "note": ""
  },
  {
   "property": "C16",
   "status": "proved",
   "theorems": [
    "C16_policy_survives",
    "C16_equal_policies"
   ],
   "note": "Linux policies."
  },
  {
   "property": "C17",
   "status": "proved",
   "theorems": [
    "C17_request_survives",
    "C17_syscall_result_survives",
    "C17_initialization_survives",
    "C17_unambiguous"
   ],
   "note": "Linux messages."
  },
  {
   "property": "C18",
   "status": "proved",
   "theorems": [
    "C18_hostile_bytes",
    "C18_reencodes"
   ],
   "note": "Linux requests."
  },
  {
   "property": "C19",
   "status": "proved",
   "theorems": [
    "C19_send_complete",
    "C19_recv_complete",
    "C19_end_to_end"
   ],
   "note": "Linux channel."
  },
  {
   "property": "C20",
   "status": "partial",
   "theorems": [
    "C20_i686_exact_partial",
    "C20_x86_64_refuted",
    "C20_x86_64_sends_fd0",
    "C20_no_handle_no_fd"
   ],
   "note": "Proved for 32-bit targets; refuted on x86_64, where the control buffer is one word too long and descriptor 0 is sent along."
  },
  {
   "property": "C21",
   "status": "partial",
   "theorems": [
    "C21_i686_no_leak_partial",
    "C21_x86_64_single_partial",
    "C21_x86_64_refuted",
    "C21_x86_64_leaks",
    "C21_x86_64_send_recv_leaks_stdin"
   ],
   "note": "Proved for 32-bit targets, and on x86_64 for datagrams with at most one descriptor; refuted on x86_64 otherwise."
  },
  {
   "property": "C22",
   "status": "partial",
   "theorems": [
    "C22_ownership",
    "C22_no_panic",
    "C22_set_get",
    "C22_clone_distinct",
    "C22_clone_inheritable_refuted",
    "C22_clone_always_inheritable"
   ],
   "note": "Linux handles. A clone is always made inheritable, which refutes that part."
  },
  {
   "property": "C23",
   "status": "proved",
   "theorems": [
    "C23_only_granted_opens"
   ],
   "note": ""
  },
  {
   "property": "C24",
   "status": "proved",
   "theorems": [
    "C24_denied_no_effect"
   ],
   "note": ""
  },
  {
   "property": "C25",
   "status": "proved",
   "theorems": [
    "C25_one_reply_each"
   ],
   "note": "On x86_64 the reply that carries a file also carries descriptor 0 (see C20)."
  },
  {
   "property": "C26",
   "status": "proved",
   "theorems": [
    "C26_syscalls_not_executed"
   ],
   "note": ""
  },
  {
   "property": "C27",
   "status": "proved",
   "theorems": [
    "C27_handshake_first",
    "C27_answer"
   ],
   "note": ""
  },
  {
   "property": "C28",
   "status": "proved",
   "theorems": [
    "C28_bad_event_ends_session"
   ],
   "note": ""
  },
  {
   "property": "C29",
   "status": "partial",
   "theorems": [
    "C29_nul_path_refuted",
    "C29_no_other_panic_partial",
    "C29_worker_can_crash_broker"
   ],
   "note": "Refuted: a NUL byte in an allowed path panics the thread. Proved: nothing else does."
  },
  {
   "property": "C30",
   "status": "partial",
   "theorems": [
    "C30_table_unchanged",
    "C30_table_at_exit_partial",
    "C30_x86_64_refuted"
   ],
   "note": "Proved as stated, for every served request. The stronger statement about the end of the session fails on x86_64 only (see C21)."
  },
  {
   "property": "C31",
   "status": "proved",
   "theorems": [
    "C31_own_reply",
    "C31_broker_answers"
   ],
   "note": ""
  },
  {
   "property": "C32",
   "status": "partial",
   "theorems": [
    "C32_completes_partial",
    "C32_nested_trap_refuted"
   ],
   "note": "Proved when no trap hits a thread inside send_recv, with a bound on the number of steps; refuted when a signal handler of the program traps there."
  },
  {
   "property": "C33",
   "status": "partial",
   "theorems": [
    "C33_guard_refuted"
   ],
   "note": "Refuted: the thread-local flag is never set."
  },
  {
   "property": "C34",
   "status": "partial",
   "theorems": [
    "C34_absolute",
    "C34_relative_partial",
    "C34_relative_refuted"
   ],
   "note": "Absolute paths proved. Relative paths: proved in audit mode and without a filter; refuted when enforcing with a filter, where getcwd is itself refused and the path is taken from the root."
  },
  {
   "property": "C35",
   "status": "partial",
   "theorems": [
    "C35_access_only_if",
    "C35_read_ok_refuted",
    "C35_write_ok_refuted"
   ],
   "note": "The 'only if' part is proved. Refuted: R_OK is always refused, W_OK is refused with a write-only rule, because the mode is used as open flags."
  },
  {
   "property": "C36",
   "status": "partial",
   "theorems": [
    "C36_stat",
    "C36_relative_refuted",
    "C36_chdir_refuted",
    "C36_chdir_partial"
   ],
   "note": "stat proved for the path as given. Refuted: relative paths are always refused, and chdir never succeeds when enforcing with a filter. chdir proved in audit mode and without a filter."
  },
  {
   "property": "C37",
   "status": "partial",
   "theorems": [
    "C37_bytes",
    "C37_lossy_refuted"
   ],
   "note": "Proved that the bytes are unchanged exactly for UTF-8 paths; refuted for others."
  },
  {
   "property": "C38",
   "status": "partial",
   "theorems": [
    "C38_no_panic_partial",
    "C38_long_path_refuted",
    "C38_full_table_refuted"
   ],
   "note": "Proved when the worker has room for two descriptors and strings are at most 10000 bytes; refuted for a full descriptor table and for paths of 65536 bytes or more."
  },
  {
   "property": "C39",
   "status": "proved",
   "theorems": [
    "C39_routing"
   ],
   "note": ""
  },
  {
   "property": "C40",
   "status": "proved",
   "theorems": [
    "C40_replays"
   ],
   "note": ""
  },
  {
   "property": "C41",
   "status": "proved",
   "theorems": [
    "C41_call_site"
   ],
   "note": ""
  },
  {
   "property": "C42",
   "status": "partial",
   "theorems": [
    "C42_prelude_partial",
    "C42_any_filter_partial",
    "C42_refuted"
   ],
   "note": "Proved for filters whose first instruction loads the accumulator, as libseccomp's do. Refuted for arbitrary filters: the prelude leaves half of the instruction pointer in the accumulator."
  },
  {
   "property": "C43",
   "status": "partial",
   "theorems": [
    "C43_patched_partial",
    "C43_not_audited_partial",
    "C43_by_address_refuted",
    "C43_by_filter_refuted"
   ],
   "note": "Proved when the low half of the call site is not 0xCAFECAFE and no instruction of the filter spells half of the placeholder. Refuted without either condition."
  },
  {
   "property": "C44",
   "status": "partial",
   "theorems": [
    "C44_memory_partial",
    "C44_memory_exact_partial",
    "C44_old_mmap_refuted",
    "C44_dangerous_partial",
    "C44_default_trap_partial",
    "C44_file_name_refuted",
    "C44_socket_refuted"
   ],
   "note": "Rules as libseccomp means them. Proved except for three things, each refuted: mmap of the 32-bit ABI (its protection is in memory), newfstatat by path, and socketpair."
  },
  {
   "property": "C45",
   "status": "partial",
   "theorems": [
    "C45_same_namespace_partial",
    "C45_refuted",
    "C45_wrong_target_refuted"
   ],
   "note": "Proved for a worker in the broker's PID namespace. Refuted with CLONE_NEWPID, which is tried first: the filter has the number of the broker's namespace."
  },
  {
   "property": "C46",
   "status": "partial",
   "theorems": [
    "C46_refuted",
    "C46_every_failure_refuted",
    "C46_loaded_partial",
    "C46_other_threads_refuted"
   ],
   "note": "Refuted: every failure of the filter construction gives an empty filter and the worker goes on. Proved: a non-empty filter is loaded or the worker panics. Also refuted for other threads when only the fallback succeeds."
  },
  {
   "property": "C47",
   "status": "proved",
   "theorems": [
    "C47_exact_descriptors",
    "C47_empty_list"
   ],
   "note": ""
  },
  {
   "property": "C48",
   "status": "partial",
   "theorems": [
    "C48_streams_partial",
    "C48_refuted",
    "C48_same_number_refuted"
   ],
   "note": "Proved unless stdout is taken from the broker's descriptor 0 or stderr from its 0 or 1; refuted for those. A stream redirected to the broker's descriptor of the same number gives no worker."
  },
  {
   "property": "C49",
   "status": "partial",
   "theorems": [
    "C49_every_write_fails_refuted",
    "C49_refuted"
   ],
   "note": "Refuted for every worker: /dev/null is opened for reading only, so each write fails with EBADF."
  },
  {
   "property": "C50",
   "status": "proved",
   "theorems": [
    "C50_no_new_privs",
    "C50_before_execve"
   ],
   "note": "Also for an execve that fails."
  },
  {
   "property": "C51",
   "status": "partial",
   "theorems": [
    "C51_dropped_partial",
    "C51_final_call_partial",
    "C51_refuted",
    "C51_bounding_refuted"
   ],
   "note": "Proved when the calls succeed and CAP_SETPCAP was held. Refuted for failing calls, which are not fatal, and for the bounding set without CAP_SETPCAP."
  },
  {
   "property": "C52",
   "status": "partial",
   "theorems": [
    "C52_reported_partial",
    "C52_interrupted_refuted"
   ],
   "note": "Proved unless reading the error pipe fails; refuted for an interrupted read, which is taken for success."
  },
  {
   "property": "C53",
   "status": "proved",
   "theorems": [
    "C53_live_worker"
   ],
   "note": ""
  },
  {
   "property": "C54",
   "status": "partial",
   "theorems": [
    "C54_no_leak_partial",
    "C54_x86_64_refuted"
   ],
   "note": "Proved except for a first message with two descriptors on x86_64, for which it is refuted."
  },
  {
   "property": "C55",
   "status": "partial",
   "theorems": [
    "C55_no_process_partial",
    "C55_refuted"
   ],
   "note": "Refuted: a worker whose handshake fails keeps running. Proved for all other errors."
  },
  {
   "property": "C56",
   "status": "proved",
   "theorems": [
    "C56_one_call",
    "C56_unique_names"
   ],
   "note": ""
  },
  {
   "property": "C57",
   "status": "partial",
   "theorems": [
    "C57_environment_partial",
    "C57_reserved_name",
    "C57_refuted"
   ],
   "note": "The environment and the parsing are proved for all configurations; the descriptor is the channel if the broker has two of its standard streams open, and refuted otherwise."
  },
  {
   "property": "C58",
   "status": "partial",
   "theorems": [
    "C58_broker_directory_refuted",
    "C58_refuted"
   ],
   "note": "Refuted: the worker always starts in the broker's directory."
  },
  {
   "property": "C59",
   "status": "proved",
   "theorems": [
    "C59_truncating_writer"
   ],
   "note": ""
  },
  {
   "property": "C60",
   "status": "proved",
   "theorems": [
    "C60_fallback",
    "C60_same_flags",
    "C60_used"
   ],
   "note": ""
  },
  {
   "property": "C61",
   "status": "proved",
   "theorems": [
    "C61_exact",
    "C61_sound"
   ],
   "note": "Exact for release builds and every path with non-empty components; soundness for every path string."
  },
  {
   "property": "C62",
   "status": "partial",
   "theorems": [
    "C62_release_partial",
    "C62_debug_refuted"
   ],
   "note": "Holds for release builds; refuted for builds with debug assertions (.pdb exception)."
  },
  {
   "property": "C63",
   "status": "proved",
   "theorems": [
    "C63_reparse"
   ],
   "note": "Every file call of every session, also in audit mode and debug builds."
  },
  {
   "property": "C64",
   "status": "partial",
   "theorems": [
    "C64_partial",
    "C64_refuted"
   ],
   "note": "True for names below 32768 UTF-16 units; longer names lose a multiple of 32768 units (refuted with C:\\app\\data -> C:\\app)."
  },
  {
   "property": "C65",
   "status": "partial",
   "theorems": [
    "C65_sound",
    "C65_sound_any_path",
    "C65_complete_partial",
    "C65_key_read_refuted"
   ],
   "note": "Soundness for every path; completeness holds for masks without notify, view, read-security and synchronise bits, otherwise refuted (KEY_READ needs a write rule)."
  },
  {
   "property": "C66",
   "status": "partial",
   "theorems": [
    "C66_drive_partial",
    "C66_refuted",
    "C66_no_effect"
   ],
   "note": "Holds for drive-absolute paths without empty components; refuted for UNC paths, whose rules have no effect."
  },
  {
   "property": "C67",
   "status": "partial",
   "theorems": [
    "C67_partial",
    "C67_refuted"
   ],
   "note": "Translation of proper root key paths is right; refuted for names that merely begin like a root key."
  },
  {
   "property": "C68",
   "status": "partial",
   "theorems": [
    "C68_refuted",
    "C68_partial"
   ],
   "note": "The clone holds the BOOL result of DuplicateHandle (refuted)."
  },
  {
   "property": "C69",
   "status": "partial",
   "theorems": [
    "C69_partial",
    "C69_at_most_one",
    "C69_refuted"
   ],
   "note": "A message with a handle value makes the broker close its own handle of that value and end the thread (refuted); true without such messages; at most one such handle per worker."
  },
  {
   "property": "C70",
   "status": "proved",
   "theorems": [
    "C70_ends",
    "C70_passes",
    "C70_slots"
   ],
   "note": "At most six passes for any OS answers; attributes match slots."
  },
  {
   "property": "C71",
   "status": "partial",
   "theorems": [
    "C71_partial",
    "C71_passed",
    "C71_refuted",
    "C71_refuted_lost",
    "C71_case_refuted"
   ],
   "note": "An empty configured entry ends the block (refuted; the channel variable is lost); names are compared with case (refuted); true for non-empty entries."
  },
  {
   "property": "C72",
   "status": "partial",
   "theorems": [
    "C72_partial",
    "C72_passed",
    "C72_refuted",
    "C72_first_argument"
   ],
   "note": "Empty arguments, tabs, quotes and final backslashes are not quoted (refuted); true for other arguments."
  },
  {
   "property": "C73",
   "status": "proved",
   "theorems": [
    "C73_handles",
    "C73_worker"
   ],
   "note": "For every process creation, and for the handles Worker::new adds."
  },
  {
   "property": "C74",
   "status": "proved",
   "theorems": [
    "C74_trampoline",
    "C74_size"
   ],
   "note": "All locations, targets and stack pointers, both architectures."
  },
  {
   "property": "C75",
   "status": "proved",
   "theorems": [
    "C75_statuses"
   ],
   "note": ""
  },
  {
   "property": "C76",
   "status": "partial",
   "theorems": [
    "C76_rejected_partial",
    "C76_policy_free",
    "C76_thirty_third_refuted",
    "C76_refuted"
   ],
   "note": "Refuted: the 33rd handle offered to a policy frees the policy and closes its handles and the one offered (for every program: C76_thirty_third_refuted). Partial for programs that offer each policy at most 32 handles."
  },
  {
   "property": "C77",
   "status": "partial",
   "theorems": [
    "C77_partial",
    "C77_same_file_refuted",
    "C77_own_file_refuted",
    "C77_refuted"
   ],
   "note": "Refuted: one descriptor as two streams is closed twice, and this can close a file of the caller. Partial for programs that give up a descriptor with the redirection and pass only descriptors they own."
  },
  {
   "property": "C78",
   "status": "proved",
   "theorems": [
    "C78_open_end_to_end"
   ],
   "note": ""
  },
  {
   "property": "C79",
   "status": "partial",
   "theorems": [
    "C79_mode_and_cloexec_refuted"
   ],
   "note": "Refuted: mode always 0600, descriptor always close-on-exec. Flags are passed unchanged."
  },
  {
   "property": "C80",
   "status": "partial",
   "theorems": [
    "C80_bad_pointer_refuted"
   ],
   "note": "Refuted for all five calls."
  },
  {
   "property": "C81",
   "status": "proved",
   "theorems": [
    "C81_pipe_wait_ends"
   ],
   "note": ""
  },
  {
   "property": "C82",
   "status": "partial",
   "theorems": [
    "C82_linux_denied",
    "C82_linux_unsupported",
    "C82_windows_file",
    "C82_registry_partial",
    "C82_registry_refuted"
   ],
   "note": "Exact for Linux and for Windows files (release builds); for the registry it holds for masks without notify, view, read-security and synchronise bits and is refuted otherwise."
  },
  {
   "property": "C83",
   "status": "partial",
   "theorems": [
    "C83_partial",
    "C83_refuted"
   ],
   "note": "Writing needs a write rule; reading needs a read rule for dispositions FILE_OPEN and FILE_OPEN_IF only; refuted for the others."
  },
  {
   "property": "C84",
   "status": "partial",
   "theorems": [
    "C84_refuted",
    "C84_partial"
   ],
   "note": "Only the leading separator is checked; '..' components are granted (refuted)."
  },
  {
   "property": "C85",
   "status": "proved",
   "theorems": [
    "C85_only_entitled",
    "C85_no_rules",
    "C85_refused_means_no_call"
   ],
   "note": "Sound for release builds; names up to 32767 units are the ones checked (C64)."
  },
  {
   "property": "C86",
   "status": "proved",
   "theorems": [
    "C86_in_order",
    "C86_ended",
    "C86_answers"
   ],
   "note": "For running and ended sessions; liveness if the pipe and handle duplication work."
  },
  {
   "property": "C87",
   "status": "proved",
   "theorems": [
    "C87_request_survives",
    "C87_reply_survives",
    "C87_policy_survives",
    "C87_unambiguous",
    "C87_hostile_bytes"
   ],
   "note": "Round trips, injectivity, values decoded from hostile bytes."
  },
  {
   "property": "C88",
   "status": "partial",
   "theorems": [
    "C88_partial",
    "C88_refuted"
   ],
   "note": "Any CreateProcess failure drops the mitigations (refuted); the rest holds."
  },
  {
   "property": "C89",
   "status": "partial",
   "theorems": [
    "C89_partial",
    "C89_refuted"
   ],
   "note": "If the handle list is refused the process inherits everything inheritable (refuted); else exact."
  },
  {
   "property": "C90",
   "status": "partial",
   "theorems": [
    "C90_partial",
    "C90_own_names",
    "C90_refuted",
    "C90_failure_refuted"
   ],
   "note": "Retries and failures leave profiles behind (refuted); true if the first pass succeeds; never more than six, only own names."
  },
  {
   "property": "C91",
   "status": "partial",
   "theorems": [
    "C91_partial",
    "C91_refuted",
    "C91_full_refuted"
   ],
   "note": "Paths without a backslash open the DLLs in the root of the drive (refuted); true for paths with one."
  },
  {
   "property": "C92",
   "status": "partial",
   "theorems": [
    "C92_windows_directory",
    "C92_refuted"
   ],
   "note": "Always the Windows directory (refuted)."
  },
  {
   "property": "C93",
   "status": "partial",
   "theorems": [
    "C93_partial",
    "C93_refuted"
   ],
   "note": "Never ends if every name is in use (refuted); else the first free name."
  },
  {
   "property": "C94",
   "status": "partial",
   "theorems": [
    "C94_partial",
    "C94_32",
    "C94_refuted"
   ],
   "note": "Refuted on 64 bits when no memory is free within 4 GiB above a module (offset cut to 32 bits); true with room, and always on 32 bits."
  },
  {
   "property": "C95",
   "status": "partial",
   "theorems": [
    "C95_create_partial",
    "C95_open_partial",
    "C95_key_partial",
    "C95_refuted"
   ],
   "note": "Unpaired surrogates are replaced, so another file is asked for (refuted); true for well-formed UTF-16."
  },
  {
   "property": "C96",
   "status": "partial",
   "theorems": [
    "C96_create_partial",
    "C96_open_partial",
    "C96_key_partial",
    "C96_long_name_panics",
    "C96_refuted"
   ],
   "note": "Long names of wide characters do not fit a message and panic (refuted); true up to 21800 UTF-16 units."
  },
  {
   "property": "C97",
   "status": "partial",
   "theorems": [
    "C97_create_partial",
    "C97_open_partial",
    "C97_key",
    "C97_refuted"
   ],
   "note": "IO_STATUS_BLOCK.Status is never written (refuted); status, handle and information are right."
  },
  {
   "property": "C98",
   "status": "partial",
   "theorems": [
    "C98_create_refused",
    "C98_open_refused",
    "C98_key_refused",
    "C98_create_partial",
    "C98_key_partial",
    "C98_refuted"
   ],
   "note": "Flags and security descriptor of OBJECT_ATTRIBUTES are dropped (refuted); everything else is passed on or refused."
  },
  {
   "property": "C99",
   "status": "proved",
   "theorems": [
    "C99_policy_as_asked",
    "C99_worker_opens"
   ],
   "note": ""
  },
  {
   "property": "C100",
   "status": "partial",
   "theorems": [
    "C100_callbacks_partial",
    "C100_nul_panics_refuted",
    "C100_refuted",
    "C100_windows_refuted"
   ],
   "note": "Refuted: a path with a NUL makes the conversion panic on the broker's thread, whatever the verdict; on Windows an empty extended attribute block is allocated with size 0. Partial for paths without NUL on Linux."
  },
  {
   "property": "C101",
   "status": "partial",
   "theorems": [
    "C101_process_stays_refuted",
    "C101_refuted"
   ],
   "note": "Refuted: nothing is killed; the process is still running after the call, for every program."
  },
  {
   "property": "C102",
   "status": "partial",
   "theorems": [
    "C102_files_partial",
    "C102_handles_arrive",
    "C102_stale_number_refuted",
    "C102_refuted",
    "C102_through_c_refuted"
   ],
   "note": "Refuted for a number that was accepted and closed afterwards, which the C interface allows: the worker starts with the broker's end of its channel. Partial when accepted handles and redirected streams are still open, which the Rust interface guarantees by lifetimes."
  },
  {
   "property": "C103",
   "status": "proved",
   "theorems": [
    "C103_opens_allowed"
   ],
   "note": ""
  },
  {
   "property": "C104",
   "status": "proved",
   "theorems": [
    "C104_only_dlls",
    "C104_others_unchanged"
   ],
   "note": ""
  },
  {
   "property": "C105",
   "status": "partial",
   "theorems": [
    "C105_partial",
    "C105_inherit_only_refuted",
    "C105_deny_refuted",
    "C105_full_refuted"
   ],
   "note": "Refuted: an allowing entry that is for children only counts as if it applied, and denying entries are ignored. Partial without such entries for the two SIDs, with SetEntriesInAcl as documented."
  },
  {
   "property": "C106",
   "status": "partial",
   "theorems": [
    "C106_leaks",
    "C106_refuted"
   ],
   "note": "Refuted: FindClose is never called and the lists made by SetEntriesInAcl are never freed; C106_leaks counts them exactly."
  },
  {
   "property": "C107",
   "status": "proved",
   "theorems": [
    "C107_session",
    "C107_handles",
    "C107_files"
   ],
   "note": "C107_files and C107_handles are for release builds with enforcing policies (C62 refutes debug builds); hooks in one thread at a time, as the mutex of send_recv has it."
  },
  {
   "property": "C108",
   "status": "partial",
   "theorems": [
    "C108_partial",
    "C108_starts",
    "C108_refuted"
   ],
   "note": "Refuted: a name that fits a UNICODE_STRING but not a message panics. Partial for names of up to 21800 UTF-16 units; C108_starts shows when the session starts."
  },
  {
   "property": "C109",
   "status": "partial",
   "theorems": [
    "C109_partial",
    "C109_one_instance",
    "C109_refuted"
   ],
   "note": "Refuted: the pipe allows two instances, so a process of the same user that serves the name before the broker connects can get in between or make the broker wait forever. Partial if nobody does; C109_one_instance: with one instance it would always hold."
  },
  {
   "property": "C110",
   "status": "partial",
   "theorems": [
    "C110_partial",
    "C110_kept",
    "C110_refuted"
   ],
   "note": "Refuted: when GetProcessId fails the process handle stays open. Partial otherwise; C110_kept holds always. Search handles of the DLL search are C106."
  },
  {
   "property": "C111",
   "status": "partial",
   "theorems": [
    "C111_partial",
    "C111_at_most_one",
    "C111_refuted"
   ],
   "note": "Refuted: after an error that follows process creation the process goes on, without a thread that serves it. Partial if those calls succeed."
  },
  {
   "property": "C112",
   "status": "proved",
   "theorems": [
    "C112_given",
    "C112_thread",
    "C112_separate"
   ],
   "note": "One thread makes workers, one after the other. pid_kept is the documented behaviour of process ids while a handle is open."
  },
  {
   "property": "C113",
   "status": "partial",
   "theorems": [
    "C113_partial",
    "C113_too_long",
    "C113_linux",
    "C113_refuted"
   ],
   "note": "Refuted on Windows: Worker::new succeeds for policies that do not fit a message, and the worker never gets one. C113_partial and C113_too_long give the sizes; C113_linux the same on Linux, where Worker::new fails instead."
  },
  {
   "property": "C114",
   "status": "partial",
   "theorems": [
    "C114_partial",
    "C114_ids",
    "C114_setuid_refuted",
    "C114_refuted",
    "C114_process"
   ],
   "note": "False as stated: every refusal of the kernel is only logged (C114_refuted: the worker starts in the host's network namespace); C114_setuid_refuted: a set-user-id broker never gets its uid map. C114_partial: true if nothing is refused, the first clone succeeded and real and effective ids agree. C114_ids: a map that is set is always the identity on the broker's own id. C114_process ties this to the model of Process::new: what is written to the three files, in which order, and which namespaces are left."
  },
  {
   "property": "C115",
   "status": "partial",
   "theorems": [
    "C115_partial",
    "C115_at_most",
    "C115_refuted"
   ],
   "note": "False: a broker with CAP_SYS_ADMIN on a kernel that refuses user namespaces mounts the worker's /proc over that of the host, since the copied mounts stay shared (C115_refuted). C115_partial: true with a user namespace, without CAP_SYS_ADMIN or without shared mounts. C115_at_most: at most that one mount is added, and the host name never changes."
  },
  {
   "property": "C116",
   "status": "partial",
   "theorems": [
    "C116_partial",
    "C116_refuted",
    "C116_running_refuted"
   ],
   "note": "Partial: holds when tables lie at multiples of the size of their entries. Refuted in full: an entry that crosses two pages leaves the second page with the protection of the first. C116_running_refuted: a page of code that holds a table cannot be executed while an entry is patched."
  },
  {
   "property": "C117",
   "status": "partial",
   "theorems": [
    "C117_namespace_partial",
    "C117_no_owner_partial",
    "C117_refuted"
   ],
   "note": "Partial: holds when the worker is in a PID namespace of its own (C117_namespace_partial), or when it never names an owner of a file (C117_no_owner_partial). Refuted in full: when the kernel refuses namespaces, fcntl is allowed with any argument, and F_SETOWN, F_SETSIG and O_ASYNC let the worker kill its broker."
  },
  {
   "property": "C118",
   "status": "proved",
   "theorems": [
    "C118_memory"
   ],
   "note": "The model over bytes in memory refines the one over tables as lists (C94). PE headers and import descriptors are taken to be as expected and are not patched. The conditions are those of the statement; C94_refuted shows that room for trampolines is needed."
  },
  {
   "property": "C119",
   "status": "partial",
   "theorems": [
    "C119_workers_apart_partial",
    "C119_alone",
    "C119_stdin_refuted",
    "C119_second_close_refuted",
    "C119_other_socket_refuted",
    "C119_refuted"
   ],
   "note": "Refuted twice: on x86_64 with a closed standard input another worker's file gets number 0 and goes along with every reply (the control message is 4 bytes too long, C20); and with the C interface's second close (C77). Partial for programs that close each descriptor once and, on x86_64, keep descriptor 0. C119_alone shows the model of one thread agrees with broker_step."
  },
  {
   "property": "C120",
   "status": "partial",
   "theorems": [
    "C120_channel_refuted",
    "C120_refuted",
    "C120_running_partial"
   ],
   "note": "Refuted for every worker that starts: socketpair is called without SOCK_CLOEXEC and the broker's end stays inheritable for the life of the worker. C120_channel_refuted says that it is exactly this one descriptor; C120_running_partial that while workers run only channels and files asked for without O_CLOEXEC are added."
  },
  {
   "property": "C121",
   "status": "partial",
   "theorems": [
    "C121_full_path_partial",
    "C121_nul_refuted",
    "C121_race_refuted",
    "C121_refuted"
   ],
   "note": "Refuted twice: a NUL inside the path cuts it (C121_nul_refuted: the rule is for what comes before the NUL), and a current directory that gets shorter between the two calls gives a rule path that ends in NULs (C121_race_refuted). Partial: no NUL, same well-formed answer twice."
  },
  {
   "property": "C122",
   "status": "partial",
   "theorems": [
    "C122_not_between_partial",
    "C122_between_refuted",
    "C122_refuted"
   ],
   "note": "Partial and refuted: C122_not_between_partial proves the outcome unchanged unless a program starts between pipe and fcntl; C122_between_refuted proves the call always waits when one does."
  },
  {
   "property": "C123",
   "status": "proved",
   "theorems": [
    "C123_as_without",
    "C123_exact_grant"
   ],
   "note": ""
  },
  {
   "property": "C124",
   "status": "partial",
   "theorems": [
    "C124_level",
    "C124_readable_partial",
    "C124_one_line_partial",
    "C124_forged_refuted",
    "C124_forged_windows_refuted",
    "C124_windows_ea_refuted",
    "C124_refuted"
   ],
   "note": "Level and readability proved (C124_level, C124_readable_partial: equal texts mean equal request and verdict on Linux). One message is one line only if the path has no line break (C124_one_line_partial); paths are not escaped, so a worker can have any line written into the log (C124_forged_refuted, C124_forged_windows_refuted, C124_refuted). On Windows the contents of extended attributes are not logged (C124_windows_ea_refuted)."
  },
  {
   "property": "C125",
   "status": "partial",
   "theorems": [
    "C125_place_partial",
    "C125_refuted",
    "C125_anywhere_refuted"
   ],
   "note": "Holds when no link lies on the way (C125_place_partial). Refuted in general: the broker's open() follows links, so a link inside an allowed directory leads out of it (C125_refuted); for every path the rules allow there is a file system in which opening it gives an object that is at no place at all (C125_anywhere_refuted)."
  },
  {
   "property": "C126",
   "status": "partial",
   "theorems": [
    "C126_same_partial",
    "C126_refuted"
   ],
   "note": "Holds when the links met on the way lead both processes to the same place (C126_same_partial). Refuted: with a rule on /proc, /proc/self gives the worker the broker's files (C126_refuted)."
  },
  {
   "property": "C127",
   "status": "partial",
   "theorems": [
    "C127_noticed_partial",
    "C127_between_refuted",
    "C127_other_worker",
    "C127_refuted"
   ],
   "note": "Refuted in general (C127_between_refuted for every program started while the broker holds the worker's end, C127_refuted); C127_noticed_partial covers all other cases, C127_other_worker that workers started in between do not keep the end."
  },
  {
   "property": "C128",
   "status": "partial",
   "theorems": [
    "C128_serving_partial",
    "C128_lost_refuted",
    "C128_refuted"
   ],
   "note": "Refuted for every successful call, not only by a witness. Partial: a thread that serves has done the handshake, and nothing is sent or called for a worker before it."
  },
  {
   "property": "C129",
   "status": "partial",
   "theorems": [
    "C129_noticed_partial",
    "C129_between_refuted",
    "C129_refuted"
   ],
   "note": "Refuted for every program started with the worker's end. Partial: true otherwise, in particular with programs started with a list of handles that does not have it, as other workers are on Windows 8 and later."
  },
  {
   "property": "C130",
   "status": "partial",
   "theorems": [
    "C130_started_partial",
    "C130_wall",
    "C130_failed_refuted",
    "C130_which_errors",
    "C130_refuted"
   ],
   "note": "Refuted for every process that ended before its program started, after any later history without __WALL or __WCLONE. The kernel side (exit signal after execve, autoreaping, eligible_child) is modelled from the kernel's behaviour, not from /repo."
  },
  {
   "property": "C131",
   "status": "partial",
   "theorems": [
    "C131_mask_refuted",
    "C131_refuted"
   ],
   "note": "Refuted with the exact permissions for every started worker."
  },
  {
   "property": "C132",
   "status": "partial",
   "theorems": [
    "C132_told_partial",
    "C132_linux",
    "C132_locks_refuted",
    "C132_windows_refuted",
    "C132_break_refuted",
    "C132_refuted"
   ],
   "note": "The three lock rights are all printed as block_readers, so two policies printed alike can give different verdicts on Windows (C132_windows_refuted). A path with a line break is printed as two rules (C132_break_refuted). For paths without line breaks everything else can be told from the output (C132_told_partial), and on Linux all verdicts (C132_linux)."
  },
  {
   "property": "C133",
   "status": "partial",
   "theorems": [
    "C133_cleaned",
    "C133_told_partial",
    "C133_other_partial",
    "C133_panics_refuted",
    "C133_refuted"
   ],
   "note": "Refuted: each of the three failing calls is a panic for paths below HKEY_CURRENT_USER (C133_panics_refuted). Proved: nothing is left behind in any case (C133_cleaned), and the rule is entered as C65 and C67 describe it when the OS tells the user or is not asked."
  },
  {
   "property": "C134",
   "status": "partial",
   "theorems": [
    "C134_handlers_refuted",
    "C134_text_refuted",
    "C134_quiet_partial",
    "C134_refuted"
   ],
   "note": "Refuted: a failed start ends with exit(3), not _exit(2). C134_handlers_refuted: all exit functions run in the new process; C134_text_refuted: after a failed execve the program's buffered standard output is written to the file meant for the worker. Partial: started workers, and programs without exit functions whose streams are not passed on."
  },
  {
   "property": "C135",
   "status": "partial",
   "theorems": [
    "C135_partial",
    "C135_refuted"
   ],
   "note": "C135_partial: two running workers with the same AppContainer name come from two programs that had the same process id at different times (so workers of one program and of programs that run are always apart). C135_refuted: process id reused while a worker of the earlier program runs. The counter (usize) is not modelled to wrap around."
  },
  {
   "property": "C136",
   "status": "partial",
   "theorems": [
    "C136_partial",
    "C136_stat_refuted",
    "C136_chdir_refuted",
    "C136_relative_refuted",
    "C136_getcwd_refuted",
    "C136_refuted"
   ],
   "note": "C136_partial: every call but stat, chdir and opens of relative paths leaves errno as documented. C136_stat_refuted: every successful stat sets errno to 0. C136_relative_refuted: every successful open of a relative path under a filter leaves ENOSYS."
  },
  {
   "property": "C137",
   "status": "partial",
   "theorems": [
    "C137_forever",
    "C137_partial",
    "C137_allocator_refuted",
    "C137_refuted"
   ],
   "note": "C137_partial: with the locks free, or the allocator free and the program started, the call is as in a program with one thread and ends. C137_forever: a lock held at the clone is never given back in the new process. C137_allocator_refuted: every start while another thread allocates waits for ever."
  },
  {
   "property": "C138",
   "status": "partial",
   "theorems": [
    "C138_partial",
    "C138_allocator_refuted",
    "C138_others_refuted",
    "C138_refuted"
   ],
   "note": "C138_partial: no deadlock if the allocator itself makes no trapped call that names a path. C138_allocator_refuted: a thread whose allocator makes one never ends, under any schedule. C138_others_refuted: neither do threads that allocate afterwards."
  },
  {
   "property": "C139",
   "status": "partial",
   "theorems": [
    "C139_partial",
    "C139_broker_refuted",
    "C139_orphan_refuted",
    "C139_worker_refuted",
    "C139_start_refuted",
    "C139_refuted"
   ],
   "note": "C139_partial: signals that are ignored or restart calls change nothing. C139_broker_refuted: a plain handler ends the session; C139_orphan_refuted: then every trapped call ends the worker. C139_worker_refuted: a plain handler during the wait of a trapped call ends the worker. C139_start_refuted: Worker::new fails though the program runs."
  },
  {
   "property": "C140",
   "status": "partial",
   "theorems": [
    "C140_partial",
    "C140_unblocked_partial",
    "C140_inherited_refuted",
    "C140_mask_refuted",
    "C140_replaced_refuted",
    "C140_earlier_handler",
    "C140_refuted"
   ],
   "note": "C140_partial: programs that leave SIGSYS alone, started unblocked, get every trapped call answered. C140_unblocked_partial: unblocking SIGSYS first suffices. C140_inherited_refuted: started with SIGSYS blocked, the first trapped call kills. C140_mask_refuted: so does blocking it later. C140_replaced_refuted: after another handler the library answers nothing. C140_earlier_handler: a handler set before makes the worker panic."
  },
  {
   "property": "C141",
   "status": "partial",
   "theorems": [
    "C141_fork_partial",
    "C141_stack_refuted",
    "C141_vfork_refuted",
    "C141_exec_refuted",
    "C141_worker",
    "C141_refuted"
   ],
   "note": "C141_fork_partial: the child of fork comes back like its parent. C141_stack_refuted: a child with its own stack goes to the word at a fixed place above the stack. C141_vfork_refuted: the caller goes to the address its child pushed. C141_exec_refuted: a started program dies of its first trapped call; C141_worker: the same calls made by the worker are answered."
  },
  {
   "property": "C142",
   "status": "partial",
   "theorems": [
    "C142_x86_64_partial",
    "C142_opened",
    "C142_i686_refuted",
    "C142_refuted"
   ],
   "note": "C142_x86_64_partial: all fields right and nothing outside written. C142_i686_refuted: for every successful stat, which field is found where, and the bytes overwritten after the buffer."
  },
  {
   "property": "C143",
   "status": "partial",
   "theorems": [
    "C143_native_partial",
    "C143_int80_refuted",
    "C143_int80_open_refuted",
    "C143_int80_fork_refuted",
    "C143_x32",
    "C143_refuted"
   ],
   "note": "Holds for calls of x86_64 (C143_native_partial); calls made by int 0x80 are taken for x86_64 calls of the same number with other registers, for all registers and policies; x32 exact in both modes."
  },
  {
   "property": "C144",
   "status": "partial",
   "theorems": [
    "C144_partial",
    "C144_sids_refuted",
    "C144_start_refuted",
    "C144_refuted"
   ],
   "note": "Reads, slots and deletions hold for all answers of the OS (C144_partial); exactly the SIDs of AppContainer profiles stay allocated, at least one per start where profiles exist."
  },
  {
   "property": "C145",
   "status": "partial",
   "theorems": [
    "C145_all_partial",
    "C145_when",
    "C145_plain_partial",
    "C145_caller",
    "C145_single_partial",
    "C145_others_refuted",
    "C145_refuted"
   ],
   "note": "Exact condition for all threads (C145_when, C145_all_partial, C145_plain_partial, C145_single_partial, C145_caller); refuted for the other threads after the fallback."
  },
  {
   "property": "C146",
   "status": "partial",
   "theorems": [
    "C146_partial",
    "C146_earlier_refuted",
    "C146_late_refuted",
    "C146_refuted"
   ],
   "note": "Proved for all interleavings with stores that follow lookups at once, from the exporting module on and for good (C146_partial); refuted for modules before it and for addresses stored late (after a run of the hooking thread that ends for every list)."
  },
  {
   "property": "C147",
   "status": "partial",
   "theorems": [
    "C147_stack",
    "C147_matched",
    "C147_partial",
    "C147_container_refuted",
    "C147_refuted"
   ],
   "note": "Stack pointer after any 32-bit call exactly (C147_stack); matched calls go well (C147_matched), and all of the code are but those of the two AppContainer functions on 32-bit Windows (C147_partial, C147_container_refuted)."
  },
  {
   "property": "C148",
   "status": "partial",
   "theorems": [
    "C148_partial",
    "C148_empty_refuted",
    "C148_linux_nul",
    "C148_windows_nul_refuted",
    "C148_refuted"
   ],
   "note": "Lifetimes, contents, layouts and balance for all requests and verdicts with texts without NULs (C148_partial); refuted for empty extended attributes and, as to leaks, for NULs on Windows; on Linux NULs leave nothing behind (C148_linux_nul)."
  },
  {
   "property": "C149",
   "status": "partial",
   "theorems": [
    "C149_partial",
    "C149_rule",
    "C149_refuted",
    "C149_id_refuted"
   ],
   "note": "For all kernels, rules, sessions: names under 32768 units, not by identifier, no reparse point before the last component (C149_partial), and the object is then a rule's own or below it (C149_rule). Refuted by a junction (C149_refuted) and, without any reparse point, by FILE_OPEN_BY_FILE_ID (C149_id_refuted)."
  },
  {
   "property": "C150",
   "status": "partial",
   "theorems": [
    "C150_partial",
    "C150_refuted"
   ],
   "note": "Equal components give equal verdicts (C150_partial); refuted for letters of another case (C150_refuted), the example also has a short name."
  },
  {
   "property": "C151",
   "status": "partial",
   "theorems": [
    "C151_stuck",
    "C151_partial",
    "C151_no_nonblock",
    "C151_refuted",
    "C151_access_refuted"
   ],
   "note": "Proved for all programs and interleavings when somebody outside holds the other end of each FIFO opened (C151_partial); refuted by two threads meeting at a FIFO (C151_refuted) and by access of a FIFO (C151_access_refuted). C151_stuck: while the broker waits nothing is answered and its thread does not end. C151_no_nonblock: O_NONBLOCK is never granted."
  },
  {
   "property": "C152",
   "status": "partial",
   "theorems": [
    "C152_once",
    "C152_partial",
    "C152_no_broker",
    "C152_poisoned",
    "C152_refuted",
    "C152_crossed"
   ],
   "note": "C152_once: at most one call returns, all interleavings. C152_partial: own answers when calls do not overlap. C152_refuted: an overlapping call poisons the lock; C152_poisoned: for ever; C152_crossed: answers go to the wrong call. C152_no_broker: without a valid variable nothing happens."
  },
  {
   "property": "C153",
   "status": "partial",
   "theorems": [
    "C153_exact",
    "C153_partial",
    "C153_refuted",
    "C153_host_refuted"
   ],
   "note": "C153_exact gives the locks a trapped call releases, for all worlds; C153_partial: sequences of calls that release none. Refuted: access releases the locks of the worker itself (C153_refuted), a granted open those of the program around the broker (C153_host_refuted)."
  },
  {
   "property": "C154",
   "status": "partial",
   "theorems": [
    "C154_plain",
    "C154_exact",
    "C154_partial",
    "C154_noctty_refused",
    "C154_refuted"
   ],
   "note": "C154_exact: exactly when and how a trapped call changes a controlling terminal. C154_plain: never without the sandbox. C154_partial: sequences, when the broker leads no session or has a terminal. C154_refuted: a daemon. C154_noctty_refused: O_NOCTTY is never granted."
  },
  {
   "property": "C155",
   "status": "partial",
   "theorems": [
    "C155_partial",
    "C155_refuted",
    "C155_fcntl",
    "C155_blocks",
    "C155_own"
   ],
   "note": "C155_partial: an exclusive lock needs a write rule, a shared one a read rule, for all sequences. C155_refuted and C155_blocks: a worker that may only read keeps writers out without any lock rule. C155_fcntl: the filter allows fcntl with all arguments."
  },
  {
   "property": "C156",
   "status": "partial",
   "theorems": [
    "C156_partial",
    "C156_exact",
    "C156_refuted",
    "C156_misdirected"
   ],
   "note": "False as stated: close_range(3, max) loses the channel. Proved for programs that name only descriptor numbers they were given, with the exact condition for an answer."
  },
  {
   "property": "C157",
   "status": "proved",
   "theorems": [
    "C157_table",
    "C157_open",
    "C157_use",
    "C157_general",
    "C157_win_table"
   ],
   "note": "Proved. Ties the model to what the project itself expects of its code: test tables generalised to all paths."
  },
  {
   "property": "C158",
   "status": "partial",
   "theorems": [
    "C158_one",
    "C158_never",
    "C158_partial",
    "C158_refuted",
    "C158_crossed"
   ],
   "note": "False as stated for programs that fork before the lowering (two refutations); proved for those that do not, and that at most one process is ever filtered."
  },
  {
   "property": "C159",
   "status": "partial",
   "theorems": [
    "C159_exact",
    "C159_capable",
    "C159_partial",
    "C159_refuted",
    "C159_unread_refuted"
   ],
   "note": "False as stated (two ways to end another session); proved for polite workers up to the descriptor limit and for a privileged broker; exact condition."
  },
  {
   "property": "C160",
   "status": "partial",
   "theorems": [
    "C160_partial",
    "C160_contents",
    "C160_reads",
    "C160_refuted",
    "C160_append_refuted",
    "C160_append"
   ],
   "note": "Partial: descriptions the worker was not given never change. Contents and reads theorems hold for all executions. Full statement refuted for redirected streams; append-only files refuted. Mappings of files are not modelled."
  },
  {
   "property": "C161",
   "status": "partial",
   "theorems": [
    "C161_partial",
    "C161_refuted",
    "C161_size_refuted"
   ],
   "note": "Partial: two data directories or more, none present of size zero. The loader behaviour (NumberOfRvaAndSizes bounds the directories; sizes of the import directory are ignored) is an assumption about Windows. Full statement refuted."
  },
  {
   "property": "C162",
   "status": "partial",
   "theorems": [
    "C162_groups",
    "C162_partial",
    "C162_all",
    "C162_passed",
    "C162_refuted",
    "C162_filter"
   ],
   "note": "The full statement is refuted: two workers that were given the two ends of one socket pair pass descriptors to each other. C162_partial is the case without shared sockets, C162_groups bounds what sharing gives."
  },
  {
   "property": "C163",
   "status": "partial",
   "theorems": [
    "C163_session",
    "C163_partial",
    "C163_refuted",
    "C163_parent_refuted"
   ],
   "note": "The full statement is refuted twice: by a link in an allowed directory, and without links by the difference between ENOTDIR and ENOENT for a parent outside the rules. C163_partial asks for the same ways, without links. About the broker only: newfstatat, which the filter allows (C44), tells a worker more."
  },
  {
   "property": "C164",
   "status": "partial",
   "theorems": [
    "C164_session",
    "C164_partial",
    "C164_refuted",
    "C164_id_refuted"
   ],
   "note": "The full statement is refuted twice: by a junction in an allowed directory, and without reparse points by opens with a file identifier. C164_partial asks for the same ways, without reparse points, and for the same identifiers."
  },
  {
   "property": "C165",
   "status": "partial",
   "theorems": [
    "C165_partial",
    "C165_minimal",
    "C165_hopeless",
    "C165_refuted",
    "C165_relative_refuted"
   ],
   "note": "The kernel is assumed not to see callbacks (blind). Partial for requests with supported flags and canonical paths; C165_hopeless shows the others cannot be granted by any rules, C165_refuted and C165_relative_refuted that the audit run serves them."
  },
  {
   "property": "C166",
   "status": "partial",
   "theorems": [
    "C166_partial",
    "C166_minimal",
    "C166_minimal_keys",
    "C166_hopeless",
    "C166_refuted"
   ],
   "note": "The thread past its handshake (which announces the audit flag). Partial for supported requests on drive paths in full form and keys under the two hives; C166_refuted shows a named pipe served by the audit run only, C166_hopeless that no rules allow it."
  },
  {
   "property": "C167",
   "status": "partial",
   "theorems": [
    "C167_partial",
    "C167_found_partial",
    "C167_refuted",
    "C167_linux_partial",
    "C167_linux_refuted"
   ],
   "note": "Windows: the process found by number is the worker as long as nobody closes its handle (C69 does); Linux: as long as the program does not wait for it"
  },
  {
   "property": "C168",
   "status": "partial",
   "theorems": [
    "C168_partial",
    "C168_returned",
    "C168_window_refuted",
    "C168_refuted"
   ],
   "note": "proved outside the moments in which the worker end of the pipe is inheritable; every plain process start in those moments gets it"
  },
  {
   "property": "C169",
   "status": "partial",
   "theorems": [
    "C169_partial",
    "C169_bounded",
    "C169_refuted"
   ],
   "note": "lock rights are not looked at: a read rule is enough for a lease that makes all other opens wait; the wait is bounded"
  },
  {
   "property": "C170",
   "status": "partial",
   "theorems": [
    "C170_handed",
    "C170_partial",
    "C170_lost",
    "C170_refuted"
   ],
   "note": "C170_handed (use of live memory, no restriction), C170_partial (freed once when some clone() works), C170_lost (exactly one block lost otherwise), C170_refuted (the full claim is false)"
  },
  {
   "property": "C171",
   "status": "partial",
   "theorems": [
    "C171_partial",
    "C171_unshared",
    "C171_locks",
    "C171_refuted"
   ],
   "note": "C171_partial (share access), C171_unshared and C171_locks (only files with a rule), C171_refuted (byte-range locks need no lock rule)"
  },
  {
   "property": "C172",
   "status": "partial",
   "theorems": [
    "C172_partial",
    "C172_paths",
    "C172_without",
    "C172_sent",
    "C172_refuted"
   ],
   "note": "The full statement is refuted by a datagram pair that sends to a name in the file system. Proved: every other message goes to a connected socket; the worker connects nothing."
  },
  {
   "property": "C173",
   "status": "partial",
   "theorems": [
    "C173_partial",
    "C173_read_partial",
    "C173_no_writes",
    "C173_reached",
    "C173_refuted",
    "C173_read_refuted"
   ],
   "note": "C173_full and C173_read_full refuted (C173_refuted, C173_read_refuted). C173_partial: changed places are writable or beside a rule; C173_read_partial under same_read (C173_alike shows it holds for real policies); C173_reached, C173_no_writes. Renames into other directories and replacing renames are left out (opened with the token of the worker)."
  },
  {
   "property": "C174",
   "status": "partial",
   "theorems": [
    "C174_absolute_partial",
    "C174_relative",
    "C174_root_partial",
    "C174_refuted"
   ],
   "note": "Absolute names, with links that lead both to the same place, and relative names of workers in the root directory; false for other relative names, which open looks up in the root directory."
  },
  {
   "property": "C175",
   "status": "proved",
   "theorems": [
    "C175_answers",
    "C175_only_granted",
    "C175_same_rights",
    "C175_without_flag"
   ],
   "note": "The broker loop with the i686 flag set; each answer, each open, and that the flag needs no right."
  },
  {
   "property": "C176",
   "status": "proved",
   "theorems": [
    "C176_without_flag",
    "C176_open",
    "C176_relative"
   ],
   "note": "Proved for paths in UTF-8 with the flag; calls without the flag are handled as on x86_64, for which C34 to C39 hold."
  },
  {
   "property": "C177",
   "status": "partial",
   "theorems": [
    "C177_partial",
    "C177_forgotten_refuted",
    "C177_audit",
    "C177_refuted"
   ],
   "note": "The full statement is false: stat64, fcntl64, ftruncate64 and sendfile64 are neither allowed nor handled. The table of the calls of the C library is an assumption about glibc."
  }
 ]
}
