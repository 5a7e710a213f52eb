{
 "claims": [
  {
   "property": "C01",
   "status": "proved",
   "theorems": [
    "C01_normalisation_canonical",
    "C01_normalisation_meaning"
   ],
   "note": "For every path string and every canonical working directory; meaning given by an independent word-by-word reading. Characters are bytes."
  },
  {
   "property": "C02",
   "status": "proved",
   "theorems": [
    "C02_equal_spellings",
    "C02_lookup_follows_names",
    "C02_directory_then_name",
    "C02_chdir_then_relative"
   ],
   "note": "All path-taking calls; lookup against an inductive name-following relation; directory-then-name law and its chdir form."
  },
  {
   "property": "C03",
   "status": "partial",
   "theorems": [
    "C03_no_dangling_names_partial",
    "C03_lookup_never_aborts_partial",
    "C03_path_calls_never_abort_partial",
    "C03_no_dangling_names_refuted"
   ],
   "note": "Holds for every history that avoids the situations in FsReachSpec.tame; false in general (failed unlink in a non-writable directory drops the link count), refuted with a witness."
  },
  {
   "property": "C04",
   "status": "partial",
   "theorems": [
    "C04_link_count_partial",
    "C04_stat_reports_names_partial",
    "C04_link_count_lower_bound_partial",
    "C04_link_count_refuted"
   ],
   "note": "Exact count for every history without the situations in tame and without rename onto an existing name; lower bound with such renames; false in general, refuted."
  },
  {
   "property": "C05",
   "status": "partial",
   "theorems": [
    "C05_rmdir_exactly_empty_partial",
    "C05_rmdir_never_nonempty",
    "C05_rmdir_exactly_empty_refuted"
   ],
   "note": "A non-empty directory is never removed, after any history. Exactness for histories without the situations in tame and without rename onto existing names, directories created without extra file-type bits; false in general, refuted in two ways."
  },
  {
   "property": "C06",
   "status": "partial",
   "theorems": [
    "C06_open_creates_partial",
    "C06_mkdir_creates_partial",
    "C06_mknod_creates",
    "C06_type_refuted"
   ],
   "note": "Creation by open, mkdir and mknod: freshness, attributes and frame proved for all reachable states. The type part fails when the mode argument carries type bits (refuted)."
  },
  {
   "property": "C07",
   "status": "partial",
   "theorems": [
    "C07_only_if_missing",
    "C07_eexist",
    "C07_one_winner_partial",
    "C07_race_refuted",
    "C07_race_partial"
   ],
   "note": "Proved for atomic system calls, any number of competitors. With interleaved calls two can succeed (refuted in a small-step model of the walk/insert race); what holds for all interleavings is C07_race_partial."
  },
  {
   "property": "C08",
   "status": "partial",
   "theorems": [
    "C08_unlink",
    "C08_reads_unchanged",
    "C08_lifetime_partial",
    "C08_lifetime_refuted"
   ],
   "note": "Unlink theorem and unchanged reads proved for all reachable states; the lifetime claim for histories without displacing renames, and refuted with them."
  },
  {
   "property": "C09",
   "status": "proved",
   "theorems": [
    "C09_link",
    "C09_unlink_one"
   ],
   "note": "For all reachable states, absolute and relative paths."
  },
  {
   "property": "C10",
   "status": "partial",
   "theorems": [
    "C10_rename_partial",
    "C10_rename_refuted"
   ],
   "note": "Proved for different paths. Refuted for equal paths and for the link count of a displaced object."
  },
  {
   "property": "C11",
   "status": "partial",
   "theorems": [
    "C11_no_effect_partial",
    "C11_no_effect_refuted"
   ],
   "note": "All modelled calls outside the situations in tame/fits_int; each excluded situation is refuted by a run."
  },
  {
   "property": "C12",
   "status": "partial",
   "theorems": [
    "C12_no_reuse_partial",
    "C12_recovery_partial",
    "C12_two_crashes_refuted"
   ],
   "note": "Within one run for all histories, and across one crash. Refuted after two crashes: numbers are reused and a new file shows old contents."
  },
  {
   "property": "C13",
   "status": "proved",
   "theorems": [
    "C13_one_name",
    "C13_one_path",
    "C13_dotdot_is_parent",
    "C13_acyclic",
    "C13_up_reaches_root",
    "C13_root_dotdot"
   ],
   "note": "After every history, including those that damage counters (fork onto a live process, EPERM unlink) and renames onto existing names."
  },
  {
   "property": "C14",
   "status": "partial",
   "theorems": [
    "C14_lowest_free_partial",
    "C14_enfile_only_when_full",
    "C14_full_gives_enfile",
    "C14_lowest_free_refuted"
   ],
   "note": "every allocating call except dup(0) returns the lowest free number, in every state; ENFILE exactly when full; dup(0) returns 0 without allocating (refuted)"
  },
  {
   "property": "C15",
   "status": "partial",
   "theorems": [
    "C15_isolation_partial",
    "C15_isolation_refuted"
   ],
   "note": "proved for all states except fork/exec whose target is the other process; fork onto a live process number replaces it (refuted)"
  },
  {
   "property": "C16",
   "status": "partial",
   "theorems": [
    "C16_open_count_partial",
    "C16_close_never_underflows_partial",
    "C16_open_file_kept_partial",
    "C16_open_count_refuted"
   ],
   "note": "For all histories that avoid tame (in particular no fork/exec onto a live process number); false otherwise, refuted."
  },
  {
   "property": "C17",
   "status": "partial",
   "theorems": [
    "C17_dup_partial",
    "C17_dupfd_partial",
    "C17_dup2_partial",
    "C17_shared_offset_refuted"
   ],
   "note": "same object, mode, offset, cleared close-on-exec and frame proved; the offset is copied rather than shared and dup2(a,a) is unchecked (refuted)"
  },
  {
   "property": "C18",
   "status": "partial",
   "theorems": [
    "C18_close_partial",
    "C18_close_refuted"
   ],
   "note": "proved for histories without dup2 of epoll descriptors and fork/exec onto live numbers; false after a failed dup2 of an epoll descriptor (refuted)"
  },
  {
   "property": "C19",
   "status": "partial",
   "theorems": [
    "C19_fork_partial",
    "C19_fork_exact_partial",
    "C19_exec_partial",
    "C19_exit_partial",
    "C19_fork_refuted"
   ],
   "note": "exec and exit exact; fork exact when the parent has descriptors 0, 1, 2 open; otherwise the child gets fresh standard streams (refuted)"
  },
  {
   "property": "C20",
   "status": "proved",
   "theorems": [
    "C20_setfd_getfd",
    "C20_setfl_keeps_access_mode",
    "C20_getfl_no_creation_flags",
    "C20_fcntl_affects_nothing_else"
   ],
   "note": "for all states and flag words, non-socket descriptors"
  },
  {
   "property": "C21",
   "status": "partial",
   "theorems": [
    "C21_closed_number_ebadf_partial",
    "C21_out_of_range_refuted"
   ],
   "note": "closed numbers in range give EBADF without effect; out-of-range numbers abort in all calls but dup, dup2 and getdents (refuted)"
  },
  {
   "property": "C22",
   "status": "proved",
   "theorems": [
    "C22_refines_array",
    "C22_seen",
    "C22_empty_write_refuted",
    "C22_write",
    "C22_writev",
    "C22_pwrite"
   ],
   "note": "Any history, any names and descriptors, other processes included; histories avoid the calls excluded by tame. Zero-length writes beyond the end extend the file (deviation shown)."
  },
  {
   "property": "C23",
   "status": "partial",
   "theorems": [
    "C23_read_partial",
    "C23_eof",
    "C23_beyond_end_refuted"
   ],
   "note": "Proved for offsets not beyond the end; beyond the end read and pread abort the library (refuted)."
  },
  {
   "property": "C24",
   "status": "partial",
   "theorems": [
    "C24_lseek_partial",
    "C24_einval",
    "C24_large_refuted"
   ],
   "note": "Proved for resulting offsets below 2^31; refuted for larger ones (32-bit result, overflow aborts)."
  },
  {
   "property": "C25",
   "status": "proved",
   "theorems": [
    "C25_read_only",
    "C25_write_only",
    "C25_mode_of_open",
    "C25_mode_fixed"
   ],
   "note": "Read-only descriptors cannot change files, write-only ones return no data; the mode is that of open and never changes."
  },
  {
   "property": "C26",
   "status": "partial",
   "theorems": [
    "C26_append_open_partial",
    "C26_append_refuted"
   ],
   "note": "False of the code: O_APPEND only sets the initial offset. What remains is proved."
  },
  {
   "property": "C27",
   "status": "proved",
   "theorems": [
    "C27_chmod",
    "C27_fchmod",
    "C27_access"
   ],
   "note": "chmod, fchmod and access, all mode words and objects."
  },
  {
   "property": "C28",
   "status": "proved",
   "theorems": [
    "C28_listing",
    "C28_small_buffer_refuted"
   ],
   "note": "All directories and buffer sequences; buffers too small for the next entry give a premature 0 (shown)."
  },
  {
   "property": "C29",
   "status": "proved",
   "theorems": [
    "C29_stream",
    "C29_write",
    "C29_write_blocking",
    "C29_read"
   ],
   "note": "Every schedule of any number of threads: accepted = delivered ++ contents; reported counts are the bytes accepted. Sequentially consistent memory; write sizes below 2^31."
  },
  {
   "property": "C30",
   "status": "partial",
   "theorems": [
    "C30_capacity",
    "C30_report_partial",
    "C30_report_vectored_partial",
    "C30_failed",
    "C30_epipe_refuted"
   ],
   "note": "Capacity proved for every schedule; reports proved for calls that succeed. A write that inserted bytes and then lost its last reader reports EPIPE (refuted)."
  },
  {
   "property": "C31",
   "status": "proved",
   "theorems": [
    "C31_small_write"
   ],
   "note": "Writes of at most 4096 bytes enter in one piece or not at all, every schedule."
  },
  {
   "property": "C32",
   "status": "partial",
   "theorems": [
    "C32_no_writer_partial",
    "C32_race_refuted",
    "C32_after_close",
    "C32_delivered",
    "C32_progress"
   ],
   "note": "Zero only when no writer exists is proved; a read racing with write+close returns 0 with a byte unread (refuted). After the last close: remaining bytes delivered in order, then 0."
  },
  {
   "property": "C33",
   "status": "proved",
   "theorems": [
    "C33_broken",
    "C33_only"
   ],
   "note": "Every schedule; calls that begin with no read end fail with EPIPE and insert nothing, EPIPE only without a read end."
  },
  {
   "property": "C34",
   "status": "partial",
   "theorems": [
    "C34_prefix_partial",
    "C34_hole_refuted",
    "C34_interleaved_refuted"
   ],
   "note": "Prefix proved for blocking calls and for buffers up to PIPE_BUF; refuted for non-blocking calls with a larger buffer, and contiguity refuted because the lock is released between buffers."
  },
  {
   "property": "C35",
   "status": "partial",
   "theorems": [
    "C35_pipe_end_counts_partial",
    "C35_pipe_end_counts_refuted"
   ],
   "note": "For all histories that avoid tame; false otherwise (fork onto a live process number), refuted."
  },
  {
   "property": "C36",
   "status": "partial",
   "theorems": [
    "C36_pipe2_success",
    "C36_pipe2_all_or_nothing_partial",
    "C36_pipe2_all_or_nothing_refuted"
   ],
   "note": "success and the full-table failure proved; with one free number a descriptor leaks (refuted)"
  },
  {
   "property": "C37",
   "status": "partial",
   "theorems": [
    "C37_read_back",
    "C37_crash_partial",
    "C37_bytewise_refuted"
   ],
   "note": "All sequences of entries and all crash points inside an append, bytes copied in any order. The count is taken to be stored in one piece; if it is stored byte by byte the property is false (refuted). The CBOR encoder belongs to a dependency and is modelled after RFC 7049."
  },
  {
   "property": "C38",
   "status": "partial",
   "theorems": [
    "C38_recovery_partial",
    "C38_nameless_gone",
    "C38_truncate_refuted",
    "C38_removed_dir_refuted"
   ],
   "note": "Recovery shows the same tree, objects and attributes for all histories (tame calls), and files without a name are gone. Not true in full: truncation by open is not logged, directories removed while open come back without a name (refuted)."
  },
  {
   "property": "C39",
   "status": "partial",
   "theorems": [
    "C39_mid_call_partial",
    "C39_create_refuted"
   ],
   "note": "For every crash point of every call all entries refer to existing objects, except the entry of the object that the call creates (refuted: the directory is logged before the new object)."
  },
  {
   "property": "C40",
   "status": "partial",
   "theorems": [
    "C40_again_partial",
    "C40_third_partial",
    "C40_second_recovery",
    "C40_idempotent_refuted"
   ],
   "note": "Idempotent from the second recovery on, and what the second recovery shows is characterised; the first recovery is not idempotent (refuted: the recovered table is never written out)."
  },
  {
   "property": "C41",
   "status": "partial",
   "theorems": [
    "C41_restart_partial",
    "C41_save_partial",
    "C41_save_crash_partial",
    "C41_rename_refuted",
    "C41_rename_open_refuted",
    "C41_tmpmode_refuted",
    "C41_tmpfile_refuted",
    "C41_crash_refuted"
   ],
   "note": "A clean shutdown and the next start, after any history, keep everything outside /tmp: paths, kinds, modes, sizes, bytes, link counts (C41_restart_partial; the histories themselves include such restarts). It is required that no file was renamed, /tmp is writable, and that both come to an end; each of these is shown to matter (rename, tmpmode, tmpfile refuted). The writing-out stage loses nothing in a crash except between removing and writing the metadata file (refuted)."
  },
  {
   "property": "C42",
   "status": "partial",
   "theorems": [
    "C42_count_partial",
    "C42_detach_partial",
    "C42_failed_map_refuted"
   ],
   "note": "Counts proved equal to attachments for all histories in which mmap does not fail; refuted when it fails."
  },
  {
   "property": "C43",
   "status": "partial",
   "theorems": [
    "C43_exists_partial",
    "C43_attach_partial",
    "C43_usable_partial",
    "C43_never_reused_partial",
    "C43_failed_map_refuted",
    "C43_attach_refuted",
    "C43_race_refuted"
   ],
   "note": "Existence, usability and fresh identifiers proved for atomic calls without failing mmap (usability: without process-shared semaphores). Refuted for a failing mmap, after a shared semaphore was destroyed, and for IPC_RMID racing with shmat."
  },
  {
   "property": "C44",
   "status": "partial",
   "theorems": [
    "C44_shmget_partial",
    "C44_unique_partial",
    "C44_distinct_partial",
    "C44_size_partial",
    "C44_size_refuted",
    "C44_larger_refuted",
    "C44_panic_refuted"
   ],
   "note": "Key rules proved for all keys, sizes and flags (mmap not failing). The size part is refuted for sizes of 2^32 and more and for larger requests on an existing segment; sizes of 2^63 and more can panic."
  },
  {
   "property": "C45",
   "status": "proved",
   "theorems": [
    "C45_value",
    "C45_post",
    "C45_trywait",
    "C45_wait",
    "C45_timedwait",
    "C45_getvalue",
    "C45_at_most_n",
    "C45_progress"
   ],
   "note": "Every schedule of any number of threads; timed wait included"
  },
  {
   "property": "C46",
   "status": "partial",
   "theorems": [
    "C46_init_partial",
    "C46_getvalue_partial",
    "C46_trywait_partial",
    "C46_wait_partial",
    "C46_post_partial",
    "C46_destroy_partial",
    "C46_fork_refuted",
    "C46_shared_panic_refuted",
    "C46_shared_offset_refuted",
    "C46_shared_address_refuted"
   ],
   "note": "Proved for private semaphores with no fork while the process has one; refuted for fork and for process-shared semaphores."
  },
  {
   "property": "C47",
   "status": "partial",
   "theorems": [
    "C47_exclusive_partial",
    "C47_waiters",
    "C47_separate_refuted"
   ],
   "note": "Exclusion and waking of waiters proved for threads that unlock what they hold; locks belong to nobody, so an unlock by a non-holder drops a lock of another descriptor (refuted with a witness)"
  },
  {
   "property": "C48",
   "status": "proved",
   "theorems": [
    "C48_mutex_create",
    "C48_cond_create",
    "C48_mutex_destroy",
    "C48_cond_destroy",
    "C48_mutex_use",
    "C48_cond_signal",
    "C48_cond_wait",
    "C48_independent"
   ],
   "note": ""
  },
  {
   "property": "C49",
   "status": "proved",
   "theorems": [
    "C49_sigset_algebra"
   ],
   "note": "signal sets are the finite subsets of 1..64"
  },
  {
   "property": "C50",
   "status": "proved",
   "theorems": [
    "C50_sigprocmask"
   ],
   "note": "per-call theorem over arbitrary states"
  },
  {
   "property": "C51",
   "status": "partial",
   "theorems": [
    "C51_blocked_signals_partial",
    "C51_pending_is_delivered_refuted",
    "C51_signal64_refuted",
    "C51_no_spurious_signal_refuted"
   ],
   "note": "the full claim is false of the code: signals unblocked by SIG_SETMASK and signal 64 are lost, and SIG_UNBLOCK sends signals that never arrived"
  },
  {
   "property": "C52",
   "status": "proved",
   "theorems": [
    "C52_sigaction"
   ],
   "note": "refinement to a function of the history"
  },
  {
   "property": "C53",
   "status": "partial",
   "theorems": [
    "C53_itimer_partial",
    "C53_reports_exactly_refuted",
    "C53_disarmed_refuted",
    "C53_elapsed_refuted",
    "C53_never_early_refuted"
   ],
   "note": "the full claim is false: microseconds are taken as nanoseconds, reported as milliseconds, elapsed time is not subtracted, disarmed timers report stale values, fractional timers fire early"
  },
  {
   "property": "C54",
   "status": "proved",
   "theorems": [
    "C54_identity"
   ],
   "note": "refinement to a function of the history"
  },
  {
   "property": "C55",
   "status": "partial",
   "theorems": [
    "C55_in_range",
    "C55_unused_partial",
    "C55_fails_only_when_full_partial",
    "C55_any_address_refuted"
   ],
   "note": "Range holds in all histories; not in use and fails only when full for fair histories, on that address; \"not in use on any address\" refuted."
  },
  {
   "property": "C56",
   "status": "partial",
   "theorems": [
    "C56_exclusive_partial",
    "C56_recorded_partial",
    "C56_release_partial",
    "C56_exclusive_refuted",
    "C56_exclusive_nonsharing_refuted",
    "C56_recorded_refuted",
    "C56_release_refuted",
    "C56_release_unrecorded_refuted"
   ],
   "note": "Exclusiveness, exact record and release for fair histories; each part refuted without fairness (sharing entered without asking, unrecorded reservation, release of a wildcard dropping another reservation and aborting)."
  },
  {
   "property": "C57",
   "status": "partial",
   "theorems": [
    "C57_conserved_partial",
    "C57_peek_next",
    "C57_threads_partial",
    "C57_threads_plain",
    "C57_threads_refuted",
    "C57_reconnect_refuted"
   ],
   "note": "Per socket, bytes read plus bytes pending are the bytes sent, in order, with any mix of peeks and reads, and a peek returns what the next read returns; with threads the same as long as no peek overlaps another receive. Refuted with overlapping peeks (bytes reordered) and when a socket is connected a second time (bytes lost)."
  },
  {
   "property": "C58",
   "status": "partial",
   "theorems": [
    "C58_shut_wr",
    "C58_shut_rd",
    "C58_shut_both",
    "C58_end_of_file_refuted",
    "C58_revived_refuted",
    "C58_unconnected_refuted"
   ],
   "note": "The sender, receiver and both-direction parts hold in all histories; refuted: the peer never sees end of file, a second shutdown revives a direction, shutdown of an unconnected socket makes it writable."
  },
  {
   "property": "C59",
   "status": "partial",
   "theorems": [
    "C59_at_most_once",
    "C59_not_lost_partial",
    "C59_accept_takes",
    "C59_matched",
    "C59_two_clients_refuted",
    "C59_two_clients_nonblocking_refuted",
    "C59_unlinked_client_refuted"
   ],
   "note": "Each request is served at most once and by the socket it was made to, and is not lost as long as no other request is made to the same address; two clients at the same time are not both served (refuted)."
  },
  {
   "property": "C60",
   "status": "partial",
   "theorems": [
    "C60_select_partial",
    "C60_select_waits",
    "C60_poll_partial",
    "C60_poll_waits",
    "C60_epoll_partial",
    "C60_unreported_data_refuted",
    "C60_spurious_priority_refuted",
    "C60_poll_range_refuted",
    "C60_writable_refuted",
    "C60_select_panics_refuted",
    "C60_select_writers",
    "C60_select_waits_writers",
    "C60_poll_exact",
    "C60_poll_waits_writers",
    "C60_epoll_exact",
    "C60_epoll_waits"
   ],
   "note": "Exact for the read ends of pipes and for connected sockets that were not peeked at and not half shut, for select, poll and epoll_wait, and for the write ends of pipes, where writable means that one byte more than the atomic size is taken; counts, requested-only reporting, and waiting only while it has to hold always. Refuted: peeked data, half-shut sockets, spurious POLLPRI, descriptor 1023, writability of full sockets and of pipes with exactly 4096 free bytes, a panic in select."
  },
  {
   "property": "C61",
   "status": "partial",
   "theorems": [
    "C61_map",
    "C61_frame",
    "C61_closed_partial",
    "C61_closed_refuted"
   ],
   "note": "Map laws and frame proved; a closed descriptor stays watched until the next epoll_wait, so its number's next use is watched too (refuted)."
  },
  {
   "property": "C62",
   "status": "proved",
   "theorems": [
    "C62_read_back",
    "C62_new_off",
    "C62_other_options_refuted"
   ],
   "note": "For the options stored as one bit each, through any descriptor and across any history. C62_other_options_refuted is an extra finding about SO_SNDLOWAT, SO_TYPE and option numbers from 32."
  },
  {
   "property": "C63",
   "status": "partial",
   "theorems": [
    "C63_accept_partial",
    "C63_socketpair_partial",
    "C63_full_table_refuted"
   ],
   "note": "Holds with room in the descriptor table; with a full table accept returns the listening descriptor and socketpair reports success (refuted)."
  },
  {
   "property": "C64",
   "status": "proved",
   "theorems": [
    "C64_device_roundtrip"
   ],
   "note": "bijection"
  },
  {
   "property": "C65",
   "status": "proved",
   "theorems": [
    "C65_errno_roundtrip"
   ],
   "note": "finite table, all integers"
  },
  {
   "property": "C66",
   "status": "proved",
   "theorems": [
    "C66_whole_second_timer_fires_on_time"
   ],
   "note": "whole-second values; fractional values are covered by the C53 refutations"
  },
  {
   "property": "C67",
   "status": "partial",
   "theorems": [
    "C67_idiom_partial",
    "C67_setfd_keeps_status_partial",
    "C67_setfl_overwrites_cloexec_refuted",
    "C67_setfl_cloexec_refuted"
   ],
   "note": "False in general: F_SETFL overwrites close-on-exec (exact characterisation and witness). Proved: the read-modify-write idiom keeps it, and F_SETFD leaves every other bit F_GETFL reports"
  },
  {
   "property": "C68",
   "status": "partial",
   "theorems": [
    "C68_fits_refuted",
    "C68_fits_partial"
   ],
   "note": "Refuted: fewer than 4096 free bytes refuse any write; proved when at least 4096 bytes are free."
  },
  {
   "property": "C69",
   "status": "partial",
   "theorems": [
    "C69_unlock_first_partial",
    "C69_convert_refuted"
   ],
   "note": "False of the code: a thread holding SH that asks for EX waits for itself for ever (witness). Proved: unlocking first, then asking for either kind, succeeds when no other thread is inside flock on that open file"
  },
  {
   "property": "C70",
   "status": "partial",
   "theorems": [
    "C70_nonblocking_partial",
    "C70_blocking",
    "C70_requests",
    "C70_invalid",
    "C70_invalid_frame",
    "C70_spurious_refuted"
   ],
   "note": "LOCK_NB never waits, blocking never fails, the exact reading of operation numbers and EINVAL for all others are proved; EAGAIN can be spurious because try_lock on the internal mutex also fails while another call is inside (witness)"
  },
  {
   "property": "C71",
   "status": "partial",
   "theorems": [
    "C71_handles_partial",
    "C71_trylock_refuted",
    "C71_timedwait_refuted"
   ],
   "note": "Holds for handles that are not live; refuted for trylock on a locked mutex and for timed-out waits."
  },
  {
   "property": "C72",
   "status": "partial",
   "theorems": [
    "C72_progress_partial",
    "C72_steps",
    "C72_deadlock_refuted"
   ],
   "note": "Proved when no two threads belong to the same process; refuted (deadlock) for two threads of one process."
  },
  {
   "property": "C73",
   "status": "partial",
   "theorems": [
    "C73_created_partial",
    "C73_empty_log_refuted"
   ],
   "note": "Once the new log has its size the next start reads it; dying between creating the file and setting its size makes every later start abort (refuted)."
  },
  {
   "property": "C74",
   "status": "partial",
   "theorems": [
    "C74_append_partial",
    "C74_large_entry_refuted"
   ],
   "note": "Entries up to 1 MB always fit; for every log there is a longer entry on which the append aborts the process (refuted)."
  },
  {
   "property": "C75",
   "status": "partial",
   "theorems": [
    "C75_all_or_nothing_partial",
    "C75_unlink_refuted"
   ],
   "note": "Proved for calls with at most one log record; refuted for unlink."
  },
  {
   "property": "C76",
   "status": "partial",
   "theorems": [
    "C76_integers_partial",
    "C76_sign_extended_refuted"
   ],
   "note": "Zero-extended and 64-bit values arrive unchanged; every sign-extended negative int is refused (refuted)."
  },
  {
   "property": "C77",
   "status": "partial",
   "theorems": [
    "C77_timeouts_partial",
    "C77_timespec_refuted",
    "C77_invalid_timeval_refuted"
   ],
   "note": "timeval and millisecond timeouts are exact; a timespec with nanoseconds is never converted correctly (1-4 ns count as seconds, more aborts), invalid timevals are accepted or abort (refuted)."
  },
  {
   "property": "C78",
   "status": "partial",
   "theorems": [
    "C78_round_trip_partial",
    "C78_within_buffer",
    "C78_only_given_bytes_partial",
    "C78_built_path",
    "C78_ipv6_refuted",
    "C78_local_path_refuted",
    "C78_short_local_refuted"
   ],
   "note": "Round trip for local and IPv4 addresses, writes stay in the buffer; IPv6 addresses cannot be passed back, local paths are read beyond the length given and short ones refused (refuted)."
  },
  {
   "property": "C79",
   "status": "partial",
   "theorems": [
    "C79_ipv4",
    "C79_device_list_partial",
    "C79_ipv6_decimal",
    "C79_ipv6_gap",
    "C79_ipv6_refuted",
    "C79_device_list_refuted"
   ],
   "note": "IPv4 text characterised completely; IPv6 groups are read as decimal, a double colon between groups fills with zeros, :: and ::1 refused, nine groups abort (refuted)."
  },
  {
   "property": "C80",
   "status": "partial",
   "theorems": [
    "C80_buffer_partial",
    "C80_unambiguous",
    "C80_long_name_refuted"
   ],
   "note": "Holds for names below 65509 bytes; a longer name has a record length that wraps (refuted)."
  },
  {
   "property": "C81",
   "status": "partial",
   "theorems": [
    "C81_getcwd_buffer",
    "C81_getcwd_call",
    "C81_getcwd_then_chdir",
    "C81_names_partial",
    "C81_no_nul_refuted"
   ],
   "note": "getcwd holds in full; gethostname truncates without NUL and getifaddrs never writes one (refuted)."
  },
  {
   "property": "C82",
   "status": "partial",
   "theorems": [
    "C82_set_operations",
    "C82_kernel_answer_partial",
    "C82_shared_refuted"
   ],
   "note": "Set operations hold in full; the translation of the kernel's answer misses duplicated descriptors (refuted)."
  },
  {
   "property": "C83",
   "status": "partial",
   "theorems": [
    "C83_setup_partial",
    "C83_data_partial",
    "C83_connect_refuted",
    "C83_connect_name_refuted",
    "C83_socketpair_refuted",
    "C83_accept_refuted",
    "C83_select_refuted",
    "C83_transfer_refuted",
    "C83_close_refuted",
    "C83_fork_refuted"
   ],
   "note": "Proved for set-up calls in every reachable state and for data and readiness calls in cages whose sockets are all unconnected, listening at an address, or fully connected. False in general: connect after a failed bind or when the made-up name exists, socketpair in the latter case, accept and select on an unbound listening socket, transfers on a connection whose client name was unlinked before accept, closing both descriptors of a duplicated bound socket, and fork after that, all abort."
  },
  {
   "property": "C84",
   "status": "partial",
   "theorems": [
    "C84_unbound_partial",
    "C84_unlinked_partial",
    "C84_bound_refuted",
    "C84_closed_refuted",
    "C84_blocking_refuted"
   ],
   "note": "Proved: connect to an address never bound, or unlinked and not bound again, fails, makes no request and changes no socket's state. False in general: an address bound by a socket that does not listen, or whose listening socket was closed, accepts connects (and a blocking one waits for ever)."
  },
  {
   "property": "C85",
   "status": "proved",
   "theorems": [
    "C85_open_unused",
    "C85_distinct",
    "C85_use",
    "C85_dup2",
    "C85_dup2_fails",
    "C85_close_fails"
   ],
   "note": "All interleavings of any number of threads; shared locks are modelled as exclusive ones."
  },
  {
   "property": "C86",
   "status": "partial",
   "theorems": [
    "C86_completes_partial",
    "C86_bounded",
    "C86_deadlock_refuted"
   ],
   "note": "Proved for dup2 calls that go upwards in some order of the numbers, and a bound on the steps of every schedule. Refuted in general: dup2(0,1) and dup2(1,0) in two threads stop both for ever."
  },
  {
   "property": "C87",
   "status": "partial",
   "theorems": [
    "C87_counts_partial",
    "C87_no_abort_partial",
    "C87_kept_partial",
    "C87_two_closes_refuted",
    "C87_lost_reference_refuted",
    "C87_leak_refuted"
   ],
   "note": "Proved for histories in which overlapping calls do not close or replace the same number and no dup2 overlaps an allocation. Refuted in general: two closes of one descriptor abort the runtime or drop a reference in use; a dup2 overlapping an open leaks a reference."
  },
  {
   "property": "C88",
   "status": "partial",
   "theorems": [
    "C88_lowest_partial",
    "C88_full_partial",
    "C88_alone_partial",
    "C88_alone_full_partial",
    "C88_skips_refuted",
    "C88_spurious_enfile_refuted"
   ],
   "note": "Proved: every number passed over was open or subject of another call at some moment of the call, so an open that overlaps no call returns the lowest. Refuted in general: a call on a number that is not open makes open pass it over, and a failing open makes another one fail with ENFILE."
  },
  {
   "property": "C89",
   "status": "proved",
   "theorems": [
    "C89_kernel_sockets",
    "C89_all_closed",
    "C89_unshared",
    "C89_own_calls"
   ],
   "note": "For every history and all kernel answers."
  },
  {
   "property": "C90",
   "status": "partial",
   "theorems": [
    "C90_send_partial",
    "C90_connect_partial",
    "C90_again_partial",
    "C90_send_refuted",
    "C90_retry_refuted"
   ],
   "note": "Holds for sockets never shut down. Refuted: a shutdown for reading before connect makes the library send on a socket without connection and refuse to connect; a failed connect is not retried (the library binds the kernel socket a second time)."
  },
  {
   "property": "C91",
   "status": "partial",
   "theorems": [
    "C91_bound_partial",
    "C91_peer_partial",
    "C91_accepted_partial",
    "C91_connect_refuted",
    "C91_accept_refuted",
    "C91_failed_bind_refuted"
   ],
   "note": "Holds for names given by bind, for the peer of connect and accept, until a shutdown. Refuted for the local name after connect, after accept and after a refused bind."
  },
  {
   "property": "C92",
   "status": "partial",
   "theorems": [
    "C92_apart_partial",
    "C92_free_partial",
    "C92_given_away_refuted",
    "C92_lost_refuted",
    "C92_ipv6_refuted"
   ],
   "note": "Holds while chosen ports are asked for on all addresses and no bind is refused. Refuted: closing a socket whose bind was refused frees another's port; a port taken by connect never comes back; all IPv6 addresses cannot be bound."
  },
  {
   "property": "C93",
   "status": "partial",
   "theorems": [
    "C93_dest",
    "C93_recv_partial",
    "C93_tcp_only",
    "C93_connect_refuted",
    "C93_failed_refuted",
    "C93_peek_refuted"
   ],
   "note": "Destination and bytes hold for every history (C93_dest needs no condition). Missing: filtering by the kernel, which is never told the peer. Refuted: connect does not reach the kernel; a failed connect sets the peer; peeking consumes the datagram."
  },
  {
   "property": "C94",
   "status": "partial",
   "theorems": [
    "C94_recv_partial",
    "C94_accept_partial",
    "C94_getfl",
    "C94_set",
    "C94_created_partial",
    "C94_left_blocking_refuted",
    "C94_early_refuted",
    "C94_udp_refuted",
    "C94_accepted_refuted"
   ],
   "note": "Holds for receives on streams and for accept; F_GETFL and F_SETFL agree with the descriptor. Refuted: a non-blocking receive leaves the kernel socket blocking; O_NONBLOCK set before the kernel socket exists is lost; a datagram receive then waits; an accepted socket shows O_NONBLOCK but is blocking."
  },
  {
   "property": "C95",
   "status": "proved",
   "theorems": [
    "C95_prefix",
    "C95_next",
    "C95_fits"
   ],
   "note": "For every history and all kernel answers."
  },
  {
   "property": "C96",
   "status": "partial",
   "theorems": [
    "C96_sound",
    "C96_complete_partial",
    "C96_write_partial",
    "C96_udp_refuted",
    "C96_copy_refuted",
    "C96_peeked_refuted",
    "C96_write_refuted",
    "C96_hang_refuted"
   ],
   "note": "Nothing unreadable is reported; what was connected, listened on or accepted through a descriptor is reported. Refuted: bound datagram sockets, copies made before connect and peeked bytes are not reported; everything is reported writable; select on a connection just made hangs."
  },
  {
   "property": "C97",
   "status": "partial",
   "theorems": [
    "C97_answers_partial",
    "C97_listen_refuted",
    "C97_send_refuted",
    "C97_shutdown_refuted",
    "C97_accept_refuted",
    "C97_close_refuted",
    "C97_port_refuted"
   ],
   "note": "Holds while no bind was refused or named a local address, nobody used shutdown or connected to 0.0.0.0:0, and descriptor numbers are in range. Refuted otherwise, with six aborting histories."
  },
  {
   "property": "C98",
   "status": "partial",
   "theorems": [
    "C98_stat_mkdir_refuted",
    "C98_unlink_unlink_refuted",
    "C98_unlink_rename_refuted",
    "C98_open_unlink_refuted",
    "C98_link_unlink_refuted",
    "C98_rmdir_create_refuted",
    "C98_mkdir_mkdir_refuted",
    "C98_late_mkdir_refuted",
    "C98_create_create_refuted"
   ],
   "note": "Refuted: no lock spans the walk and the changes that follow. Nine pairs of calls with outcomes no order has: stat during mkdir aborts, two unlinks abort, unlink and rename abort, open and unlink leave a descriptor without object, link and unlink leave a name without object, rmdir and create lose the file, two mkdirs both succeed, a late mkdir drops a directory with its contents, two creating opens get different files. What holds is C99."
  },
  {
   "property": "C99",
   "status": "partial",
   "theorems": [
    "C99_serial_partial",
    "C99_abort_partial",
    "C99_separate",
    "C99_alone"
   ],
   "note": "Proved for ten calls on names (stat, chmod, open, mkdir, mknod, link, unlink, rmdir, rename, close), any number of processes and all interleavings: the run equals one with the calls in turn, an abort happens only if it can in turn; the hypothesis holds after every history for separate names; a call alone is the step of the sequential model. Missing: file contents, times, the log, chdir and the calls on descriptors."
  },
  {
   "property": "C100",
   "status": "proved",
   "theorems": [
    "C100_bounded",
    "C100_no_deadlock",
    "C100_ends",
    "C100_groups_same_runs",
    "C100_groups_no_deadlock",
    "C100_groups_ends"
   ],
   "note": "The bound on the number of steps holds for all runs; no deadlock and a way to the end from every state, for locks per object and for every grouping of the objects into locks (shards). An abort of a process counts as its end. Locks of the log are not part of this model."
  },
  {
   "property": "C101",
   "status": "partial",
   "theorems": [
    "C101_found",
    "C101_shared_directory_refuted",
    "C101_own_objects_partial",
    "C101_alone",
    "C101_some_time"
   ],
   "note": "Refuted for objects that several processes change: log_metadata copies the object and appends the copy under different locks, so two processes that create names in one directory can leave the older copy last, and the name of a call that returned is lost. Proved for all interleavings: an object with one writer is found as left; one process alone loses nothing; every object is found in a state it had."
  },
  {
   "property": "C102",
   "status": "partial",
   "theorems": [
    "C102_only_adds",
    "C102_copied_partial",
    "C102_empty_dir_refuted",
    "C102_onto_dir_refuted",
    "C102_hard_link_refuted"
   ],
   "note": "Whatever it does, the tool only adds (C102_only_adds, no side condition). The files are there with their bytes if nothing is in the way, the root is no destination, destinations are not hard links of each other and a descriptor is free. Refuted: empty directories are not copied; a file onto a directory aborts (an empty one reports success); destinations that are hard links all get the last bytes."
  },
  {
   "property": "C103",
   "status": "partial",
   "theorems": [
    "C103_updated_partial",
    "C103_empty_file_refuted",
    "C103_readonly_dir_refuted"
   ],
   "note": "Full effect if nothing is in the way, existing files are below 2 GiB in writable directories, and an empty new file has its directory. Refuted: an empty file whose directory is missing aborts the tool; in a directory without write permission the file is written in place, so its other names change."
  },
  {
   "property": "C104",
   "status": "partial",
   "theorems": [
    "C104_ends_partial",
    "C104_no_fchdir_partial",
    "C104_own_locks_partial",
    "C104_fork_chdir_refuted",
    "C104_fchdir_same_group",
    "C104_fchdir_root_refuted",
    "C104_fchdir_crossing_refuted"
   ],
   "note": "Proved for all interleavings if no process forks in one thread while another of its threads changes directory and fchdir is used only where the locks of the map follow the tree (always if each object has its own lock, or if fchdir is not used). Refuted without these conditions: fork and chdir wait for each other; fchdir on the root, or on a directory that shares a lock with its parent, waits for itself; two calls of fchdir can wait for each other."
  },
  {
   "property": "C105",
   "status": "partial",
   "theorems": [
    "C105_call_partial",
    "C105_history_partial",
    "C105_from_start_partial",
    "C105_has_view",
    "C105_only_view_partial",
    "C105_program_partial"
   ],
   "note": "Every history of all 35 calls (files, directories with their listings, devices, pipes, epoll descriptors, processes), from the first start and from every reachable state, gives the answers of the machine in FsViewSpec, and every reachable state has a view. Not covered: calls on a descriptor of a directory that was removed, dup2 of an epoll descriptor onto an open number, pipe2 with exactly one number free, and calls that damage the tables (fork or exec onto a live process, unlink in a directory that is not writable, rename onto an existing name in the same directory: C03, C04, C10, C11, C16). The same for programs that choose each call by the answers so far."
  },
  {
   "property": "C106",
   "status": "partial",
   "theorems": [
    "C106_refuted",
    "C106_exact_partial",
    "C106_history_partial",
    "C106_total_partial",
    "C106_safe_partial"
   ],
   "note": "The claim is false of the code (refuted by eight histories); proved instead: the exact condition under which each of the 35 calls aborts, and total correctness of the histories without such calls. Missing: the calls that C105 excludes."
  },
  {
   "property": "C107",
   "status": "partial",
   "theorems": [
    "C107_understood",
    "C107_refused",
    "C107_unknown",
    "C107_cases",
    "C107_values_unique",
    "C107_extra",
    "C107_needless_word_refuted"
   ],
   "note": "every call with well-formed words acts as the named call with these values; the first bad word decides the error and nothing happens; unknown numbers answer -1; words after the parameters do not matter; a string without an end aborts; refuted: a parameter that the call does not need (mode without O_CREAT, third word of F_GETFL, buffer of no bytes) can make it fail"
  },
  {
   "property": "C108",
   "status": "partial",
   "theorems": [
    "C108_call",
    "C108_program",
    "C108_failed_partial",
    "C108_failed_refuted"
   ],
   "note": "calls write only inside the area described by number and words, per call and along programs; failing calls change no memory except fstatfs and pipe (refuted for these) and buffers of 2 GiB and more"
  },
  {
   "property": "C109",
   "status": "partial",
   "theorems": [
    "C109_delivered",
    "C109_statfs",
    "C109_fstatfs_partial",
    "C109_stat_refuted"
   ],
   "note": "bytes, stat fields, directory records, path and pipe descriptors lie in memory after the call; statfs and fstatfs fill the structure; refuted: times, and block counts of devices, keep the caller's old bytes; random devices excepted (their bytes are arbitrary)"
  },
  {
   "property": "C110",
   "status": "proved",
   "theorems": [
    "C110_reads_only"
   ],
   "note": "non-interference for all pairs of memories"
  },
  {
   "property": "C111",
   "status": "partial",
   "theorems": [
    "C111_states",
    "C111_view_partial",
    "C111_round_trip"
   ],
   "note": "all programs stay in states reached by well-formed calls; the path-to-object specification predicts abort, answer, state and memory for the calls of C105; write-then-pread round trip through memory"
  },
  {
   "property": "C112",
   "status": "partial",
   "theorems": [
    "C112_printed_partial",
    "C112_grows",
    "C112_silent",
    "C112_bytes_refuted"
   ],
   "note": "text is printed in order and nothing else prints; refuted: bytes that are not UTF-8 per call are lost while write reports success, writev answers EIO, writev to stdin prints"
  },
  {
   "property": "C113",
   "status": "partial",
   "theorems": [
    "C113_who",
    "C113_moment",
    "C113_no_return",
    "C113_aborts",
    "C113_unregistered_refuted"
   ],
   "note": "Who ends, when, and with what effect is proved; that the runtime goes on is refuted: a thread that was never registered and comes to a cancel point makes check_thread unwrap nothing, which aborts the runtime with all its processes."
  },
  {
   "property": "C114",
   "status": "partial",
   "theorems": [
    "C114_reader",
    "C114_empty_pipe",
    "C114_waiter_partial",
    "C114_asleep",
    "C114_orphaned_mutex",
    "C114_writer",
    "C114_late_waiter_refuted",
    "C114_two_waiters_refuted",
    "C114_writer_refuted",
    "C114_locker_refuted"
   ],
   "note": "Proved for readers of pipes under every interleaving and for a waiter that alone wants its mutex. Refuted: a thread that begins to wait after the cancellation sleeps for ever; of two waiters with one mutex at most one ends, because the first dies with the mutex held; a writer to a full pipe and a thread that wants a mutex of a caught thread have no cancel point."
  },
  {
   "property": "C115",
   "status": "partial",
   "theorems": [
    "C115_deltree_partial",
    "C115_format_partial",
    "C115_deltree_refuted",
    "C115_deltree_mode_refuted"
   ],
   "note": "True of trees whose modes are truthful and whose directories' records fit into the tool's 65536-byte buffer, also at the root (format). Refuted otherwise: a directory with more records keeps some of them, because the offset is kept while entries are removed; a directory made with the type bits of a file stays."
  },
  {
   "property": "C116",
   "status": "partial",
   "theorems": [
    "C116_ls_partial",
    "C116_ls_file",
    "C116_missing",
    "C116_tree_partial",
    "C116_drawing_complete",
    "C116_printed",
    "C116_ls_refuted"
   ],
   "note": "True of directories of any size and depth with truthful modes, names of at most 65508 bytes and enough free descriptors. Refuted for longer names: getdents answers 0, which is taken for the end."
  },
  {
   "property": "C117",
   "status": "proved",
   "theorems": [
    "C117_store_rights",
    "C117_store_frame",
    "C117_private",
    "C117_mmap",
    "C117_rules_exclusive",
    "C117_aborts"
   ],
   "note": "The abort for descriptor numbers outside the table is documented in the source as a bug; C117_aborts states it exactly. The kernel's answer is arbitrary within host_may."
  },
  {
   "property": "C118",
   "status": "partial",
   "theorems": [
    "C118_load",
    "C118_store",
    "C118_store_load",
    "C118_fresh",
    "C118_stays_partial",
    "C118_detached",
    "C118_detached_store",
    "C118_coherent_refuted",
    "C118_stores_lost_refuted",
    "C118_unmap"
   ],
   "note": "False in general: open with O_TRUNC (and creat) removes the host file and makes a new one, so an existing mapping keeps the old bytes and stores through it are lost (C118_coherent_refuted, C118_stores_lost_refuted). Proved: agreement while attached, and that only truncating opens, the end of the file, or a new mapping over the address end the attachment."
  },
  {
   "property": "C119",
   "status": "partial",
   "theorems": [
    "C119_mmap_told",
    "C119_munmap_told",
    "C119_address_refuted",
    "C119_errno_refuted",
    "C119_munmap_errno_refuted",
    "C119_munmap_refuted"
   ],
   "note": "Whether a mapping was made can be told, and the address modulo 2^32. Refuted: the whole address, documented codes when the kernel refuses (the answer is always -1), 0 as the answer of a successful munmap."
  },
  {
   "property": "C120",
   "status": "proved",
   "theorems": [
    "C120_understood",
    "C120_refused",
    "C120_unique",
    "C120_cases",
    "C120_timeout_aborts",
    "C120_paths",
    "C120_del_refuted"
   ],
   "note": "All 25 calls; the full claim fails where the code refuses a null event for EPOLL_CTL_DEL (C120_del_refuted), and select aborts for exactly the timeouts of C120_timeout_aborts. Addresses outside the root directory, of other families, and recvfrom with an address are outside the model."
  },
  {
   "property": "C121",
   "status": "partial",
   "theorems": [
    "C121_frame",
    "C121_failed_partial",
    "C121_waits_partial",
    "C121_poll_refuted",
    "C121_pipe_refuted",
    "C121_pair_refuted"
   ],
   "note": "The frame holds for all calls; that failing or waiting calls change nothing holds for all but poll and pipe, for which it is refuted, as is the meaning of socketpair's answer with a full table."
  },
  {
   "property": "C122",
   "status": "partial",
   "theorems": [
    "C122_select_partial",
    "C122_poll_partial",
    "C122_epoll_partial",
    "C122_except_refuted",
    "C122_select_writers",
    "C122_poll_exact",
    "C122_epoll_exact"
   ],
   "note": "Exactness for readers (sockets, pipes, listeners) and for the write ends of pipes, as in C60; every event of epoll_wait, and none left out if there was room. Missing: sockets as writers, which are always reported (C60_writable_refuted), and the set of exceptional conditions, which is refuted."
  },
  {
   "property": "C123",
   "status": "proved",
   "theorems": [
    "C123_reached",
    "C123_received",
    "C123_sent",
    "C123_transferred"
   ],
   "note": "For stream sockets of AF_UNIX."
  },
  {
   "property": "C124",
   "status": "proved",
   "theorems": [
    "C124_bound",
    "C124_unbound",
    "C124_connected",
    "C124_pair",
    "C124_accepted",
    "C124_errors",
    "C124_failed_bind_refuted",
    "C124_accept_full_refuted"
   ],
   "note": "The claim holds after calls that succeed; a failed bind and accept with a full table store addresses that are wrong (refuted)."
  },
  {
   "property": "C125",
   "status": "proved",
   "theorems": [
    "C125_load",
    "C125_store",
    "C125_shared"
   ],
   "note": "Loads, stores and two attachments of one segment, in all histories of any number of processes."
  },
  {
   "property": "C126",
   "status": "proved",
   "theorems": [
    "C126_fresh",
    "C126_kept",
    "C126_store_one"
   ],
   "note": "New segments are empty; everything but a store keeps the bytes; a store changes one byte."
  },
  {
   "property": "C127",
   "status": "partial",
   "theorems": [
    "C127_table_partial",
    "C127_whole_partial",
    "C127_detach_partial",
    "C127_count_partial",
    "C127_over_refuted"
   ],
   "note": "Proved for histories in which every attach succeeded, fits and covers no other, and children get a copy of the memory; refuted when one attach covers another."
  },
  {
   "property": "C128",
   "status": "partial",
   "theorems": [
    "C128_other_partial",
    "C128_spill_refuted",
    "C128_size_refuted"
   ],
   "note": "Proved when every attach succeeded and fits into the memory of its process; refuted for attaches that reach past its end and for segments whose size exceeds 2^32."
  },
  {
   "property": "C129",
   "status": "proved",
   "theorems": [
    "C129_understood",
    "C129_refused",
    "C129_limit_aborts",
    "C129_cases",
    "C129_unique",
    "C129_other_numbers",
    "C129_history"
   ],
   "note": "decoding of the numbers and words of 35 calls, for all words; every history of numbered calls is a history of the process and IPC models"
  },
  {
   "property": "C130",
   "status": "partial",
   "theorems": [
    "C130_frame",
    "C130_action",
    "C130_mask",
    "C130_timer",
    "C130_segment",
    "C130_failed_partial",
    "C130_failed_refuted",
    "C130_other_timers_refuted"
   ],
   "note": "frame and stored fields proved; failing sigaction and sigprocmask store the old value, setitimer of other timers stores nothing"
  },
  {
   "property": "C131",
   "status": "partial",
   "theorems": [
    "C131_apart_partial",
    "C131_returned_partial",
    "C131_same_record_refuted"
   ],
   "note": "holds for records that do not overlap; with one record for both the new value is lost"
  },
  {
   "property": "C132",
   "status": "partial",
   "theorems": [
    "C132_timed_partial",
    "C132_timed_refuted",
    "C132_null_refuted"
   ],
   "note": "holds for limits whose nanoseconds times 10^9 fit in 32 bits and for builds without overflow checks; a limit of five nanoseconds aborts, shmat of the null address is refused"
  },
  {
   "property": "C133",
   "status": "partial",
   "theorems": [
    "C133_files",
    "C133_sockets",
    "C133_null_refuted"
   ],
   "note": "Full for every buffer that is not null, for whole programs over files, pipes, streams, devices and sockets. Refuted for null buffers: the dispatcher answers EFAULT, the quick calls go on (a read or write of no bytes answers 0, a closed descriptor EBADF)."
  },
  {
   "property": "C134",
   "status": "partial",
   "theorems": [
    "C134_frame",
    "C134_answer",
    "C134_unique",
    "C134_answers",
    "C134_refused",
    "C134_fsync",
    "C134_range_refuted",
    "C134_host_refuted",
    "C134_fsync_refuted"
   ],
   "note": "Frame, exact answers, uniqueness, refused words, and an answer after any history for descriptors inside the table and errors that the library knows; where fsync answers 0 so does sync_file_range if the host does. Refuted: a number outside the table aborts instead of EBADF, an error of the host above 131 aborts, and fsync refuses read-only descriptors that sync_file_range accepts."
  },
  {
   "property": "C135",
   "status": "partial",
   "theorems": [
    "C135_ioctl",
    "C135_unique",
    "C135_files",
    "C135_effect",
    "C135_reachable",
    "C135_shared_refuted",
    "C135_pipe_refuted",
    "C135_async_refuted",
    "C135_range_refuted"
   ],
   "note": "Exact answers, frame (all but bit 11 of the flags of the descriptor), and the effect on read, write, send and recv, for local sockets and all other descriptors (INET sockets: C94); FIONBIO is a call of NetModel, so the theorems on local sockets cover histories with it. Refuted: a duplicate of the descriptor keeps its own bit, FIONBIO on a pipe is ENOTTY, FIOASYNC answers 0 and does nothing, a number outside the table aborts."
  },
  {
   "property": "C136",
   "status": "partial",
   "theorems": [
    "C136_program",
    "C136_words",
    "C136_senseless",
    "C136_ended",
    "C136_files",
    "C136_told",
    "C136_null_refuted",
    "C136_minus_one_refuted"
   ],
   "note": "Meaning of the words, refusal, frame and answers proved for all programs; a null address and a widened descriptor -1, which most programs use, are refused always (refuted)"
  },
  {
   "property": "C137",
   "status": "partial",
   "theorems": [
    "C137_words",
    "C137_unique",
    "C137_program",
    "C137_refused",
    "C137_frame",
    "C137_room",
    "C137_kernel",
    "C137_sockname",
    "C137_peername",
    "C137_nameless_aborts",
    "C137_ipv6_refuted",
    "C137_name6_refuted"
   ],
   "note": "Meaning of the words, refusal, frame, room, what the kernel sees and the way back of IPv4 addresses proved for all programs; IPv6 addresses in the layout of the system are refused always, and getsockname of an unbound IPv6 socket ends the library (refuted)"
  },
  {
   "property": "C138",
   "status": "partial",
   "theorems": [
    "C138_masks",
    "C138_sent",
    "C138_kill",
    "C138_exit",
    "C138_caller_mask_refuted",
    "C138_exit_refuted",
    "C138_kill_number_refuted",
    "C138_alarm_refuted"
   ],
   "note": "Masks, answers of kill and exit and the signals of every call proved for all histories; refuted: the mask a child starts with is that of the thread that started last, not of the caller of fork; kill accepts every number; when the parent has just called exec and its thread has not started, exit of a child ends the library and an alarm fails at the same assertion"
  }
 ]
}