# Formal model of safeposix-rust in Rocq/Coq 8.16.1

The source under `/repo` is read as text.  The model in `rocq/theories` is an
executable Gallina transcription of the logic of the system calls; every
definition cites the file and lines it models and says where it simplifies.

## Layout

| file | contents |
|---|---|
| `Base.v` | outcomes, error numbers, flag constants, machine-word conversions, the tactic `run_ex` for concrete runs |
| `*Model.v`, `FsBoot.v` | executable models, no proofs |
| `*Spec.v` | small independent specifications used in the statements |
| `FsViewSpec.v` | a complete executable specification of the file-system calls in terms of paths and objects; `FsModel` is proved to refine it (C105) |
| `FsAbortSpec.v` | which of these calls abort, in the terms of `FsViewSpec.v` (C106) |
| `Props*.v` | `Theorem … / Proof by one lemma / Print Assumptions`, and the non-vacuity examples |
| all others | lemmas, invariants |

| group | models | what of `/repo/src` |
|---|---|---|
| paths and file system | `PathModel` `FsModel` | `safeposix/filesystem.rs`, `safeposix/cage.rs`, `interface/file.rs` (emulated files), the file, directory, descriptor and pipe calls of `safeposix/syscalls/fs_calls.rs`, fork, exec, exit of `sys_calls.rs`: 35 calls as one function `step` |
| start, recovery, shutdown | `FsBoot` `LogModel` | `filesystem.rs` (format, load, log, persist, fsck), `interface/file.rs` (mapped log), `dispatcher.rs` start and shutdown, `tools/lib_fs_utils.rs` 239-336 |
| pipes, threads | `PipeModel` `ExclModel` | `interface/pipe.rs`, the window of `open` between walk and insertion |
| names with threads | `FsRaceModel` | stat, chmod, open, mkdir, mknod, link, unlink, rmdir, rename, close of several processes at once: `metawalkandparent` step by step, each access to the inode table one step |
| shards | `FsShard` | the steps of `FsRaceModel` when the map locks groups of objects |
| working directory with threads | `CwdModel` | lock operations of chdir, fchdir, fork, getcwd and of calls that follow a path (`fs_calls.rs` 3113-3235, 5571-5585, `sys_calls.rs` 215-349, `filesystem.rs` 463-583); other locks are left out |
| copy tools | `FsCopyModel` | `tools/lib_fs_utils.rs` 17-237 (`cp`, `update`); the host is a tree of files and directories |
| other commands of the tool | `ToolModel` | `tools/lib_fs_utils.rs` 239-336, `tools/fs_utils.rs` 29-86 (`deltree`, `format`, `ls`, `tree`), as programs over the calls of `FsModel`; loops carry a number of iterations, and the theorems hold from some number on |
| memory-mapped files | `MapModel` | `fs_calls.rs` 4413-4507 (`mmap_syscall`), 4551-4570 (`munmap_syscall`), `misc.rs` 335-338 (`libc_mmap`), over the calls of `FsModel`. The kernel's part is modelled as one address space of all processes (as in the runtime, whose processes are threads of one host process), mappings on host files that outlive the removal of the file, private pages copied at the first store, and an answer of the kernel (an address or a refusal) chosen by the environment within the promises of `MapSpec.host_may`. Not modelled: MAP_GROWSDOWN and other flags, mremap, execution rights (any of the three protection bits allows a load), mappings larger than the address space |
| entry point of the socket calls | `WireModel` | `dispatcher.rs` 128-158, 295-297, 338-350 and the cases of the socket, pipe and readiness calls in 380-745; `types.rs` 222-311, 378-415, 501-707, 759-775; `net_calls.rs` 3364-3445, 4237-4390, 4485-4618, 4902-5051, 5199-5200; over the calls of `NetModel` and the memory of `AbiModel`. Simplified: one memory for all processes; local addresses are names in the root directory that do not begin with "sock". Left out (answer `Outside`): other addresses, recvfrom with an address, read and write of files and terminals |
| bytes of shared memory | `SegModel` | `shm.rs` 76-123 (`map_shm`, `unmap_shm`), `file.rs` 448-476, `misc.rs` 335-338, `fs_calls.rs` 5777-5923 (addresses in `shmat`, `shmdt`), over the calls of `IpcModel`. The kernel's map of the one host address space is part of the state; process `c` owns the 2^32 addresses from `c * 2^32` on. Simplified: the bytes of the last page behind a segment's size are shared too; the mapping without access made by shmdt does not fail; whether a child gets a copy of its parent's memory (the loader's work) is an argument of fork |
| entry point, processes, signals, timers, shared memory, locks | `GateModel` | `dispatcher.rs` 15-158 and the cases 374-379, 646-673, 787-935; converters `types.rs` 220-299, 404-414, 720-757, 784-826 and records 96-159; the order of reads and writes in `sys_calls.rs` 739-866 and `fs_calls.rs` 5927-5958; the calls are those of `SigModel` and `IpcModel`. Simplified: one memory for all processes; padding and the fields of IPC_STAT that `IpcModel` lacks (times, process numbers) hold arbitrary bytes |
| log with threads | `LogRaceModel` | `filesystem.rs` (`log_metadata`), the order of changes and log entries in the calls that change objects |
| descriptor table with threads | `FdRaceModel` | `cage.rs` (`get_next_fd`), the locking of `open`, `dup2`, `_close_helper`, and of calls on a descriptor |
| locks, semaphores | `SemModel` `LockModel` | `interface/misc.rs` (`RustSemaphore`, `AdvisoryLock`), their calls |
| shared memory, handles | `IpcModel` `ShmRaceModel` | `safeposix/shm.rs`, the shm, sem, mutex and cond calls |
| signals, timers, identity | `SigModel` | `sys_calls.rs`, `interface/timer.rs`, signal sets of `misc.rs` |
| ports | `PortModel` | `safeposix/net.rs` 221-523 |
| local sockets, readiness | `NetModel` `PeekModel` | AF_UNIX part of `net_calls.rs`: socket, bind, listen, connect, accept, socketpair, send/recv, shutdown, options, select, poll, epoll |
| INET sockets | `InetModel` | AF_INET and AF_INET6 part of `net_calls.rs` and `interface/comm.rs`: what the library does around the kernel calls, for all answers of the kernel; sockets in close, dup, dup2, fork, fcntl, ioctl |
| boundary | `AbiModel` | `interface/types.rs`, `interface/comm.rs` (addresses, descriptor sets), getcwd, gethostname, getifaddrs, getdents buffers |
| quick calls, sync_file_range, ioctl | `DirectModel` | `dispatcher.rs` 168-189, 251-259, 366-373; `types.rs` 222-264, 416-426; `file.rs` 130-143; `fs_calls.rs` 4026-4107 (`ioctl_syscall`), 5161-5219 (`sync_file_range_syscall`), over the states of `EntryModel` and `WireModel`. Simplified: the host's answer to sync_file_range is a function of file and arguments; a null buffer with a count above zero (undefined behaviour) is left open |
| entry point of mmap and munmap | `MapEntryModel` | `dispatcher.rs` 151-158, 210-235, 319-336; `types.rs` 222-237, 251-254, 266-269, 283-293, over the states of `MapModel` |
| entry point of the INET calls | `InetWireModel` | `dispatcher.rs` 137-158, 295-297, 338-350, 380-580; `types.rs` 222-299, 378-415, 501-628; `net_calls.rs` 158-311, 4237-4390; `comm.rs` 18-96, over the states of `InetModel` and the memory of `AbiModel`. Left out (answer `Outside`): IPv4 addresses whose padding is not zero, IPv6 addresses as results, recvfrom with an address, read and write of other descriptors, combinations that socket refuses |
| entry point | `EntryModel` | `dispatcher.rs` 15-935 (38 call numbers), converters and structures of `interface/types.rs`, strings in memory (`misc.rs` 330-333), what `write` and `writev` print, statfs and fstatfs |
| cancellation | `CancelModel` | `dispatcher.rs` 953-986, `cage.rs` 168-177, `misc.rs` 227-247, the cancel points of `read` on a pipe and of `cond_wait`, and the waits of `write` on a pipe and of `mutex_lock` that have none; small steps of the threads of one process |
| codecs | `CodecModel` `ErrnoModel` | device numbers, permission bits, error table |

## Conventions

* An aborted runtime (`panic!`, `unwrap` on `None`, out-of-range index, checked
  arithmetic overflow of a debug build) is the explicit outcome `Panic`, never a
  default value.
* Integers are `Z`.  Where the code truncates (`as i32`, `as u32`) or shifts in
  a machine word the truncation is written into the model.
* A call that has to wait is an explicit outcome in the sequential models; in
  the small-step models (`PipeModel`, `SemModel`, `LockModel`, `FdRaceModel`, `ExclModel`,
  `ShmRaceModel`, `PeekModel`, `FsRaceModel`, `FsShard`, `CwdModel`, `LogRaceModel`) each critical section is one step and the
  theorems quantify over all schedules of any number of threads.
* Host services (real files, sockets, clock, CBOR) are modelled abstractly (a
  map from file numbers to byte lists) or quantified over.
* A property that the code violates has a theorem `…_refuted` with a concrete
  history or a family of them (the finding) and, where a useful part holds, a
  theorem `…_partial`; the comment above it says what is missing.  Such a
  property has status `partial` in MANIFEST.json.
* The histories of the file-system theorems are given by
  `FsReachSpec.reach`.  It excludes, in the predicate `tame`, exactly the
  calls by which the code damages its own tables (fork or exec onto a live
  process number, unlink failing with EPERM, dup2 of an epoll descriptor onto
  an open one, pipe2 with one free descriptor and, for some theorems, rename
  onto an existing name).  Each of these is shown reachable and harmful by a
  `_refuted` theorem (C03, C04, C08, C11, C16, C18, C35, C36).  Histories may
  contain any number of clean shutdowns and starts, in worlds that satisfy
  `can_stop` (no file renamed since the last start, /tmp writable); what goes
  wrong otherwise is shown by `_refuted` theorems of C41.

## Properties

### C01 Path normalisation is canonical and cannot escape the root

*Modelled and proved by:* path parsing and `normpath` against an independent word-by-word reading; induction over components.

*Status:* proved. For every path string and every canonical working directory; meaning given by an independent word-by-word reading. Characters are bytes.

*Theorems:* `C01_normalisation_canonical` `C01_normalisation_meaning`

### C02 Equal spellings resolve to the same object

*Modelled and proved by:* `metawalkandparent` over an arbitrary table of inodes against an inductive name-following relation; induction over the path.

*Status:* proved. All path-taking calls; lookup against an inductive name-following relation; directory-then-name law and its chdir form.

*Theorems:* `C02_equal_spellings` `C02_lookup_follows_names` `C02_directory_then_name` `C02_chdir_then_relative`

### C03 No dangling names

*Modelled and proved by:* invariant of the whole file-system world over all calls: every entry refers to an object, every object has at least as many links as names.

*Status:* partial. Holds for every history that avoids the situations in FsReachSpec.tame; false in general (failed unlink in a non-writable directory drops the link count), refuted with a witness.

*Theorems:* `C03_no_dangling_names_partial` `C03_lookup_never_aborts_partial` `C03_path_calls_never_abort_partial` `C03_no_dangling_names_refuted`

### C04 Link count equals number of names

*Modelled and proved by:* exact counting invariant over histories, lower bound with displacing renames.

*Status:* partial. Exact count for every history without the situations in tame and without rename onto an existing name; lower bound with such renames; false in general, refuted.

*Theorems:* `C04_link_count_partial` `C04_stat_reports_names_partial` `C04_link_count_lower_bound_partial` `C04_link_count_refuted`

### C05 rmdir removes exactly empty directories

*Modelled and proved by:* exact counting invariant over histories, lower bound with displacing renames.

*Status:* partial. A non-empty directory is never removed, after any history. Exactness for histories without the situations in tame and without rename onto existing names, directories created without extra file-type bits; false in general, refuted in two ways.

*Theorems:* `C05_rmdir_exactly_empty_partial` `C05_rmdir_never_nonempty` `C05_rmdir_exactly_empty_refuted`

### C06 Creation makes exactly one fresh object

*Modelled and proved by:* per-call theorems with frame conditions in reachable states; the race in a small-step model.

*Status:* partial. Creation by open, mkdir and mknod: freshness, attributes and frame proved for all reachable states. The type part fails when the mode argument carries type bits (refuted).

*Theorems:* `C06_open_creates_partial` `C06_mkdir_creates_partial` `C06_mknod_creates` `C06_type_refuted`

### C07 Exclusive creation

*Modelled and proved by:* per-call theorems with frame conditions in reachable states; the race in a small-step model.

*Status:* partial. Proved for atomic system calls, any number of competitors. With interleaved calls two can succeed (refuted in a small-step model of the walk/insert race); what holds for all interleavings is C07_race_partial.

*Theorems:* `C07_only_if_missing` `C07_eexist` `C07_one_winner_partial` `C07_race_refuted` `C07_race_partial`

### C08 unlink keeps open files alive and reclaims at last close

*Modelled and proved by:* per-call theorems with a complete description of which paths change, in reachable states.

*Status:* partial. Unlink theorem and unchanged reads proved for all reachable states; the lifetime claim for histories without displacing renames, and refuted with them.

*Theorems:* `C08_unlink` `C08_reads_unchanged` `C08_lifetime_partial` `C08_lifetime_refuted`

### C09 Hard links are aliases

*Modelled and proved by:* per-call theorems with a complete description of which paths change, in reachable states.

*Status:* proved. For all reachable states, absolute and relative paths.

*Theorems:* `C09_link` `C09_unlink_one`

### C10 rename moves one name

*Modelled and proved by:* per-call theorems with a complete description of which paths change, in reachable states.

*Status:* partial. Proved for different paths. Refuted for equal paths and for the link count of a displaced object.

*Theorems:* `C10_rename_partial` `C10_rename_refuted`

### C11 Failed file-system calls have no effect

*Modelled and proved by:* case analysis over all calls and all error returns.

*Status:* partial. All modelled calls outside the situations in tame/fits_int; each excluded situation is refuted by a run.

*Theorems:* `C11_no_effect_partial` `C11_no_effect_refuted`

### C12 Object numbers are never reused

*Modelled and proved by:* monotone counter invariant, and through recovery.

*Status:* partial. Within one run for all histories, and across one crash. Refuted after two crashes: numbers are reused and a new file shows old contents.

*Theorems:* `C12_no_reuse_partial` `C12_recovery_partial` `C12_two_crashes_refuted`

### C13 The directory structure stays a tree

*Modelled and proved by:* invariant of every history (no condition on the calls): the names, the '..' and the link counts of directories, with a ghost set of directories that lost their name to a rename; root reachability by induction on inode numbers.

*Status:* proved. After every history, including those that damage counters (fork onto a live process, EPERM unlink) and renames onto existing names.

*Theorems:* `C13_one_name` `C13_one_path` `C13_dotdot_is_parent` `C13_acyclic` `C13_up_reaches_root` `C13_root_dotdot`

### C14 Lowest free descriptor

*Modelled and proved by:* per-call theorems over the descriptor tables of all processes, in all or in reachable states.

*Status:* partial. every allocating call except dup(0) returns the lowest free number, in every state; ENFILE exactly when full; dup(0) returns 0 without allocating (refuted)

*Theorems:* `C14_lowest_free_partial` `C14_enfile_only_when_full` `C14_full_gives_enfile` `C14_lowest_free_refuted`

### C15 Process isolation of descriptors and working directory

*Modelled and proved by:* per-call theorems over the descriptor tables of all processes, in all or in reachable states.

*Status:* partial. proved for all states except fork/exec whose target is the other process; fork onto a live process number replaces it (refuted)

*Theorems:* `C15_isolation_partial` `C15_isolation_refuted`

### C16 Open-reference accounting

*Modelled and proved by:* counting invariant: references equal descriptors over all processes.

*Status:* partial. For all histories that avoid tame (in particular no fork/exec onto a live process number); false otherwise, refuted.

*Theorems:* `C16_open_count_partial` `C16_close_never_underflows_partial` `C16_open_file_kept_partial` `C16_open_count_refuted`

### C17 dup and dup2

*Modelled and proved by:* per-call theorems over the descriptor tables of all processes, in all or in reachable states.

*Status:* partial. same object, mode, offset, cleared close-on-exec and frame proved; the offset is copied rather than shared and dup2(a,a) is unchecked (refuted)

*Theorems:* `C17_dup_partial` `C17_dupfd_partial` `C17_dup2_partial` `C17_shared_offset_refuted`

### C18 close

*Modelled and proved by:* per-call theorems over the descriptor tables of all processes, in all or in reachable states.

*Status:* partial. proved for histories without dup2 of epoll descriptors and fork/exec onto live numbers; false after a failed dup2 of an epoll descriptor (refuted)

*Theorems:* `C18_close_partial` `C18_close_refuted`

### C19 fork, exec and exit on descriptors

*Modelled and proved by:* per-call theorems over the descriptor tables of all processes, in all or in reachable states.

*Status:* partial. exec and exit exact; fork exact when the parent has descriptors 0, 1, 2 open; otherwise the child gets fresh standard streams (refuted)

*Theorems:* `C19_fork_partial` `C19_fork_exact_partial` `C19_exec_partial` `C19_exit_partial` `C19_fork_refuted`

### C20 Descriptor flags

*Modelled and proved by:* per-call theorems over the descriptor tables of all processes, in all or in reachable states.

*Status:* proved. for all states and flag words, non-socket descriptors

*Theorems:* `C20_setfd_getfd` `C20_setfl_keeps_access_mode` `C20_getfl_no_creation_flags` `C20_fcntl_affects_nothing_else`

### C21 Bad descriptor numbers are rejected

*Modelled and proved by:* per-call theorems over the descriptor tables of all processes, in all or in reachable states.

*Status:* partial. closed numbers in range give EBADF without effect; out-of-range numbers abort in all calls but dup, dup2 and getdents (refuted)

*Theorems:* `C21_closed_number_ebadf_partial` `C21_out_of_range_refuted`

### C22 Positioned I/O refines a byte array

*Modelled and proved by:* refinement: the file is an array and the calls are array operations, over any history.

*Status:* proved. Any history, any names and descriptors, other processes included; histories avoid the calls excluded by tame. Zero-length writes beyond the end extend the file (deviation shown).

*Theorems:* `C22_refines_array` `C22_seen` `C22_empty_write_refuted` `C22_write` `C22_writev` `C22_pwrite`

### C23 Sequential read and end of file

*Modelled and proved by:* per-call theorems in reachable states, induction over call sequences.

*Status:* partial. Proved for offsets not beyond the end; beyond the end read and pread abort the library (refuted).

*Theorems:* `C23_read_partial` `C23_eof` `C23_beyond_end_refuted`

### C24 lseek

*Modelled and proved by:* per-call theorems in reachable states, induction over call sequences.

*Status:* partial. Proved for resulting offsets below 2^31; refuted for larger ones (32-bit result, overflow aborts).

*Theorems:* `C24_lseek_partial` `C24_einval` `C24_large_refuted`

### C25 Access mode of a descriptor is enforced

*Modelled and proved by:* per-call theorems in reachable states, induction over call sequences.

*Status:* proved. Read-only descriptors cannot change files, write-only ones return no data; the mode is that of open and never changes.

*Theorems:* `C25_read_only` `C25_write_only` `C25_mode_of_open` `C25_mode_fixed`

### C26 O_APPEND

*Modelled and proved by:* per-call theorems in reachable states, induction over call sequences.

*Status:* partial. False of the code: O_APPEND only sets the initial offset. What remains is proved.

*Theorems:* `C26_append_open_partial` `C26_append_refuted`

### C27 chmod and access

*Modelled and proved by:* per-call theorems in reachable states, induction over call sequences.

*Status:* proved. chmod, fchmod and access, all mode words and objects.

*Theorems:* `C27_chmod` `C27_fchmod` `C27_access`

### C28 Directory listing is complete and duplicate-free

*Modelled and proved by:* per-call theorems in reachable states, induction over call sequences.

*Status:* proved. All directories and buffer sequences; buffers too small for the next entry give a premature 0 (shown).

*Theorems:* `C28_listing` `C28_small_buffer_refuted`

### C29 Pipes deliver bytes in order without loss or duplication

*Modelled and proved by:* small-step pipe model; invariants over all schedules; concrete schedules for the refutations.

*Status:* proved. Every schedule of any number of threads: accepted = delivered ++ contents; reported counts are the bytes accepted. Sequentially consistent memory; write sizes below 2^31.

*Theorems:* `C29_stream` `C29_write` `C29_write_blocking` `C29_read`

### C30 Pipe capacity is bounded

*Modelled and proved by:* small-step pipe model; invariants over all schedules; concrete schedules for the refutations.

*Status:* partial. Capacity proved for every schedule; reports proved for calls that succeed. A write that inserted bytes and then lost its last reader reports EPIPE (refuted).

*Theorems:* `C30_capacity` `C30_report_partial` `C30_report_vectored_partial` `C30_failed` `C30_epipe_refuted`

### C31 Small pipe writes are atomic

*Modelled and proved by:* small-step pipe model; invariants over all schedules; concrete schedules for the refutations.

*Status:* proved. Writes of at most 4096 bytes enter in one piece or not at all, every schedule.

*Theorems:* `C31_small_write`

### C32 Pipe end-of-file

*Modelled and proved by:* small-step pipe model; invariants over all schedules; concrete schedules for the refutations.

*Status:* partial. Zero only when no writer exists is proved; a read racing with write+close returns 0 with a byte unread (refuted). After the last close: remaining bytes delivered in order, then 0.

*Theorems:* `C32_no_writer_partial` `C32_race_refuted` `C32_after_close` `C32_delivered` `C32_progress`

### C33 Broken pipe

*Modelled and proved by:* small-step pipe model; invariants over all schedules; concrete schedules for the refutations.

*Status:* proved. Every schedule; calls that begin with no read end fail with EPIPE and insert nothing, EPIPE only without a read end.

*Theorems:* `C33_broken` `C33_only`

### C34 Vectored pipe writes form one stream segment

*Modelled and proved by:* small-step pipe model; invariants over all schedules; concrete schedules for the refutations.

*Status:* partial. Prefix proved for blocking calls and for buffers up to PIPE_BUF; refuted for non-blocking calls with a larger buffer, and contiguity refuted because the lock is released between buffers.

*Theorems:* `C34_prefix_partial` `C34_hole_refuted` `C34_interleaved_refuted`

### C35 Pipe end counts follow descriptors

*Modelled and proved by:* counting invariant: references equal descriptors over all processes.

*Status:* partial. For all histories that avoid tame; false otherwise (fork onto a live process number), refuted.

*Theorems:* `C35_pipe_end_counts_partial` `C35_pipe_end_counts_refuted`

### C36 pipe creation is all-or-nothing

*Modelled and proved by:* per-call theorems; witnesses.

*Status:* partial. success and the full-table failure proved; with one free number a descriptor leaks (refuted)

*Theorems:* `C36_pipe2_success` `C36_pipe2_all_or_nothing_partial` `C36_pipe2_all_or_nothing_refuted`

### C37 Log appends survive crashes as whole entries

*Modelled and proved by:* byte-level log file; crash after any prefix of the memory writes; induction over entries.

*Status:* partial. All sequences of entries and all crash points inside an append, bytes copied in any order. The count is taken to be stored in one piece; if it is stored byte by byte the property is false (refuted). The CBOR encoder belongs to a dependency and is modelled after RFC 7049.

*Theorems:* `C37_read_back` `C37_crash_partial` `C37_bytewise_refuted`

### C38 Recovery reproduces the file system

*Modelled and proved by:* world plus metadata file, log and host files as an event trace; replay invariant over all calls and crash points.

*Status:* partial. Recovery shows the same tree, objects and attributes for all histories (tame calls), and files without a name are gone. Not true in full: truncation by open is not logged, directories removed while open come back without a name (refuted).

*Theorems:* `C38_recovery_partial` `C38_nameless_gone` `C38_truncate_refuted` `C38_removed_dir_refuted`

### C39 A crash inside a call leaves a consistent tree

*Modelled and proved by:* world plus metadata file, log and host files as an event trace; replay invariant over all calls and crash points.

*Status:* partial. For every crash point of every call all entries refer to existing objects, except the entry of the object that the call creates (refuted: the directory is logged before the new object).

*Theorems:* `C39_mid_call_partial` `C39_create_refuted`

### C40 Recovery is idempotent

*Modelled and proved by:* world plus metadata file, log and host files as an event trace; replay invariant over all calls and crash points.

*Status:* partial. Idempotent from the second recovery on, and what the second recovery shows is characterised; the first recovery is not idempotent (refuted: the recovered table is never written out).

*Theorems:* `C40_again_partial` `C40_third_partial` `C40_second_recovery` `C40_idempotent_refuted`

### C41 Clean shutdown preserves the file system

*Modelled and proved by:* world plus metadata file, log and host files as an event trace; replay invariant over all calls and crash points.

*Status:* partial. A clean shutdown and the next start, after any history, keep everything outside /tmp: paths, kinds, modes, sizes, bytes, link counts (C41_restart_partial; the histories themselves include such restarts). It is required that no file was renamed, /tmp is writable, and that both come to an end; each of these is shown to matter (rename, tmpmode, tmpfile refuted). The writing-out stage loses nothing in a crash except between removing and writing the metadata file (refuted).

*Theorems:* `C41_restart_partial` `C41_save_partial` `C41_save_crash_partial` `C41_rename_refuted` `C41_rename_open_refuted` `C41_tmpmode_refuted` `C41_tmpfile_refuted` `C41_crash_refuted`

### C42 Shared-memory attach counts

*Modelled and proved by:* handle and segment tables of any number of processes; counting invariants and per-call theorems.

*Status:* partial. Counts proved equal to attachments for all histories in which mmap does not fail; refuted when it fails.

*Theorems:* `C42_count_partial` `C42_detach_partial` `C42_failed_map_refuted`

### C43 Shared-memory segment life time

*Modelled and proved by:* handle and segment tables of any number of processes; counting invariants and per-call theorems.

*Status:* partial. Existence, usability and fresh identifiers proved for atomic calls without failing mmap (usability: without process-shared semaphores). Refuted for a failing mmap, after a shared semaphore was destroyed, and for IPC_RMID racing with shmat.

*Theorems:* `C43_exists_partial` `C43_attach_partial` `C43_usable_partial` `C43_never_reused_partial` `C43_failed_map_refuted` `C43_attach_refuted` `C43_race_refuted`

### C44 Shared-memory keys

*Modelled and proved by:* handle and segment tables of any number of processes; counting invariants and per-call theorems.

*Status:* partial. Key rules proved for all keys, sizes and flags (mmap not failing). The size part is refuted for sizes of 2^32 and more and for larger requests on an existing segment; sizes of 2^63 and more can panic.

*Theorems:* `C44_shmget_partial` `C44_unique_partial` `C44_distinct_partial` `C44_size_partial` `C44_size_refuted` `C44_larger_refuted` `C44_panic_refuted`

### C45 Semaphore counting

*Modelled and proved by:* small-step semaphore and advisory-lock models; invariants over all schedules.

*Status:* proved. Every schedule of any number of threads; timed wait included

*Theorems:* `C45_value` `C45_post` `C45_trywait` `C45_wait` `C45_timedwait` `C45_getvalue` `C45_at_most_n` `C45_progress`

### C46 Semaphore handles

*Modelled and proved by:* handle and segment tables of any number of processes; counting invariants and per-call theorems.

*Status:* partial. Proved for private semaphores with no fork while the process has one; refuted for fork and for process-shared semaphores.

*Theorems:* `C46_init_partial` `C46_getvalue_partial` `C46_trywait_partial` `C46_wait_partial` `C46_post_partial` `C46_destroy_partial` `C46_fork_refuted` `C46_shared_panic_refuted` `C46_shared_offset_refuted` `C46_shared_address_refuted`

### C47 Advisory locks exclude

*Modelled and proved by:* small-step semaphore and advisory-lock models; invariants over all schedules.

*Status:* partial. Exclusion and waking of waiters proved for threads that unlock what they hold; locks belong to nobody, so an unlock by a non-holder drops a lock of another descriptor (refuted with a witness)

*Theorems:* `C47_exclusive_partial` `C47_waiters` `C47_separate_refuted`

### C48 Mutex and condition-variable handles

*Modelled and proved by:* handle and segment tables of any number of processes; counting invariants and per-call theorems.

*Status:* proved. 

*Theorems:* `C48_mutex_create` `C48_cond_create` `C48_mutex_destroy` `C48_cond_destroy` `C48_mutex_use` `C48_cond_signal` `C48_cond_wait` `C48_independent`

### C49 Signal set algebra

*Modelled and proved by:* signal sets, masks, actions, timers and process identity; bit lemmas, refinement to functions of the history.

*Status:* proved. signal sets are the finite subsets of 1..64

*Theorems:* `C49_sigset_algebra`

### C50 Signal mask changes

*Modelled and proved by:* signal sets, masks, actions, timers and process identity; bit lemmas, refinement to functions of the history.

*Status:* proved. per-call theorem over arbitrary states

*Theorems:* `C50_sigprocmask`

### C51 Blocked signals stay pending

*Modelled and proved by:* signal sets, masks, actions, timers and process identity; bit lemmas, refinement to functions of the history.

*Status:* partial. the full claim is false of the code: signals unblocked by SIG_SETMASK and signal 64 are lost, and SIG_UNBLOCK sends signals that never arrived

*Theorems:* `C51_blocked_signals_partial` `C51_pending_is_delivered_refuted` `C51_signal64_refuted` `C51_no_spurious_signal_refuted`

### C52 Signal actions

*Modelled and proved by:* signal sets, masks, actions, timers and process identity; bit lemmas, refinement to functions of the history.

*Status:* proved. refinement to a function of the history

*Theorems:* `C52_sigaction`

### C53 Interval timers

*Modelled and proved by:* signal sets, masks, actions, timers and process identity; bit lemmas, refinement to functions of the history.

*Status:* partial. the full claim is false: microseconds are taken as nanoseconds, reported as milliseconds, elapsed time is not subtracted, disarmed timers report stale values, fractional timers fire early

*Theorems:* `C53_itimer_partial` `C53_reports_exactly_refuted` `C53_disarmed_refuted` `C53_elapsed_refuted` `C53_never_early_refuted`

### C54 Process identity

*Modelled and proved by:* signal sets, masks, actions, timers and process identity; bit lemmas, refinement to functions of the history.

*Status:* proved. refinement to a function of the history

*Theorems:* `C54_identity`

### C55 Ephemeral ports are in range and unused

*Modelled and proved by:* port tables; search lemma, invariants over histories.

*Status:* partial. Range holds in all histories; not in use and fails only when full for fair histories, on that address; "not in use on any address" refuted.

*Theorems:* `C55_in_range` `C55_unused_partial` `C55_fails_only_when_full_partial` `C55_any_address_refuted`

### C56 Port reservations are exclusive and released

*Modelled and proved by:* port tables; search lemma, invariants over histories.

*Status:* partial. Exclusiveness, exact record and release for fair histories; each part refuted without fairness (sharing entered without asking, unrecorded reservation, release of a wildcard dropping another reservation and aborting).

*Theorems:* `C56_exclusive_partial` `C56_recorded_partial` `C56_release_partial` `C56_exclusive_refuted` `C56_exclusive_nonsharing_refuted` `C56_recorded_refuted` `C56_release_refuted` `C56_release_unrecorded_refuted`

### C57 Peeking does not consume

*Modelled and proved by:* state machine of local sockets, pipes and epoll instances; ghost counters of bytes and requests, invariants over histories, per-call theorems; small-step model of receives with threads.

*Status:* partial. Per socket, bytes read plus bytes pending are the bytes sent, in order, with any mix of peeks and reads, and a peek returns what the next read returns; with threads the same as long as no peek overlaps another receive. Refuted with overlapping peeks (bytes reordered) and when a socket is connected a second time (bytes lost).

*Theorems:* `C57_conserved_partial` `C57_peek_next` `C57_threads_partial` `C57_threads_plain` `C57_threads_refuted` `C57_reconnect_refuted`

### C58 Shutdown direction semantics

*Modelled and proved by:* state machine of local sockets, pipes and epoll instances; ghost counters of bytes and requests, invariants over histories, per-call theorems; small-step model of receives with threads.

*Status:* partial. The sender, receiver and both-direction parts hold in all histories; refuted: the peer never sees end of file, a second shutdown revives a direction, shutdown of an unconnected socket makes it writable.

*Theorems:* `C58_shut_wr` `C58_shut_rd` `C58_shut_both` `C58_end_of_file_refuted` `C58_revived_refuted` `C58_unconnected_refuted`

### C59 Local connections are all served

*Modelled and proved by:* state machine of local sockets, pipes and epoll instances; ghost counters of bytes and requests, invariants over histories, per-call theorems; small-step model of receives with threads.

*Status:* partial. Each request is served at most once and by the socket it was made to, and is not lost as long as no other request is made to the same address; two clients at the same time are not both served (refuted).

*Theorems:* `C59_at_most_once` `C59_not_lost_partial` `C59_accept_takes` `C59_matched` `C59_two_clients_refuted` `C59_two_clients_nonblocking_refuted` `C59_unlinked_client_refuted`

### C60 Readiness reports are sound and counted

*Modelled and proved by:* state machine of local sockets, pipes and epoll instances; ghost counters of bytes and requests, invariants over histories, per-call theorems; small-step model of receives with threads.

*Status:* partial. Exact for the read ends of pipes and for connected sockets that were not peeked at and not half shut, for select, poll and epoll_wait, and for the write ends of pipes, where writable means that one byte more than the atomic size is taken; counts, requested-only reporting, and waiting only while it has to hold always. Refuted: peeked data, half-shut sockets, spurious POLLPRI, descriptor 1023, writability of full sockets and of pipes with exactly 4096 free bytes, a panic in select.

*Theorems:* `C60_select_partial` `C60_select_waits` `C60_poll_partial` `C60_poll_waits` `C60_epoll_partial` `C60_unreported_data_refuted` `C60_spurious_priority_refuted` `C60_poll_range_refuted` `C60_writable_refuted` `C60_select_panics_refuted` `C60_select_writers` `C60_select_waits_writers` `C60_poll_exact` `C60_poll_waits_writers` `C60_epoll_exact` `C60_epoll_waits`

### C61 Epoll interest list

*Modelled and proved by:* state machine of local sockets, pipes and epoll instances; ghost counters of bytes and requests, invariants over histories, per-call theorems; small-step model of receives with threads.

*Status:* partial. Map laws and frame proved; a closed descriptor stays watched until the next epoll_wait, so its number's next use is watched too (refuted).

*Theorems:* `C61_map` `C61_frame` `C61_closed_partial` `C61_closed_refuted`

### C62 Socket options

*Modelled and proved by:* state machine of local sockets, pipes and epoll instances; ghost counters of bytes and requests, invariants over histories, per-call theorems; small-step model of receives with threads.

*Status:* proved. For the options stored as one bit each, through any descriptor and across any history. C62_other_options_refuted is an extra finding about SO_SNDLOWAT, SO_TYPE and option numbers from 32.

*Theorems:* `C62_read_back` `C62_new_off` `C62_other_options_refuted`

### C63 Descriptor-returning network calls report failure

*Modelled and proved by:* state machine of local sockets, pipes and epoll instances; ghost counters of bytes and requests, invariants over histories, per-call theorems; small-step model of receives with threads.

*Status:* partial. Holds with room in the descriptor table; with a full table accept returns the listening descriptor and socketpair reports success (refuted).

*Theorems:* `C63_accept_partial` `C63_socketpair_partial` `C63_full_table_refuted`

### C64 Device numbers round-trip

*Modelled and proved by:* bijections, bitwise and by the finite table.

*Status:* proved. bijection

*Theorems:* `C64_device_roundtrip`

### C65 Error codes round-trip

*Modelled and proved by:* bijections, bitwise and by the finite table.

*Status:* proved. finite table, all integers

*Theorems:* `C65_errno_roundtrip`

### C66 Whole-second alarm timers fire on time

*Modelled and proved by:* signal sets, masks, actions, timers and process identity; bit lemmas, refinement to functions of the history.

*Status:* proved. whole-second values; fractional values are covered by the C53 refutations

*Theorems:* `C66_whole_second_timer_fires_on_time`

### C67 Status flags and close-on-exec are separate

*Modelled and proved by:* per-call theorems; witnesses. Positive part: the F_GETFL / F_SETFL read-modify-write keeps close-on-exec for every flag word (`setfl_idiom`), and F_SETFD keeps every status bit (`setfd_getfl`).

*Status:* partial. False in general: F_SETFL overwrites close-on-exec (exact characterisation and witness). Proved: the read-modify-write idiom keeps it, and F_SETFD leaves every other bit F_GETFL reports

*Theorems:* `C67_idiom_partial` `C67_setfd_keeps_status_partial` `C67_setfl_overwrites_cloexec_refuted` `C67_setfl_cloexec_refuted`

### C68 A non-blocking pipe write that fits is accepted

*Modelled and proved by:* small-step pipe model; invariants over all schedules; concrete schedules for the refutations.

*Status:* partial. Refuted: fewer than 4096 free bytes refuse any write; proved when at least 4096 bytes are free.

*Theorems:* `C68_fits_refuted` `C68_fits_partial`

### C69 flock converts a lock already held

*Modelled and proved by:* small-step semaphore and advisory-lock models; invariants over all schedules. Positive part: from any polite run in which every lock on the open file has been given back and only one thread is inside flock on it, that thread's call returns 0 (`alone_wins`).

*Status:* partial. False of the code: a thread holding SH that asks for EX waits for itself for ever (witness). Proved: unlocking first, then asking for either kind, succeeds when no other thread is inside flock on that open file

*Theorems:* `C69_unlock_first_partial` `C69_convert_refuted`

### C70 flock with LOCK_NB fails only when a conflicting lock is held

*Modelled and proved by:* small-step semaphore and advisory-lock models; invariants over all schedules.

*Status:* partial. LOCK_NB never waits, blocking never fails, the exact reading of operation numbers and EINVAL for all others are proved; EAGAIN can be spurious because try_lock on the internal mutex also fails while another call is inside (witness)

*Theorems:* `C70_nonblocking_partial` `C70_blocking` `C70_requests` `C70_invalid` `C70_invalid_frame` `C70_spurious_refuted`

### C71 Failures of mutex and condition-variable calls are negative error numbers

*Modelled and proved by:* handle and segment tables of any number of processes; counting invariants and per-call theorems.

*Status:* partial. Holds for handles that are not live; refuted for trylock on a locked mutex and for timed-out waits.

*Theorems:* `C71_handles_partial` `C71_trylock_refuted` `C71_timedwait_refuted`

### C72 Shared-memory calls of several threads complete

*Modelled and proved by:* small-step model of the lock operations; progress over all schedules.

*Status:* partial. Proved when no two threads belong to the same process; refuted (deadlock) for two threads of one process.

*Theorems:* `C72_progress_partial` `C72_steps` `C72_deadlock_refuted`

### C73 A crash during start-up does not prevent the next start

*Modelled and proved by:* byte-level log file; crash after any prefix of the memory writes; induction over entries.

*Status:* partial. Once the new log has its size the next start reads it; dying between creating the file and setting its size makes every later start abort (refuted).

*Theorems:* `C73_created_partial` `C73_empty_log_refuted`

### C74 Every metadata change can be logged

*Modelled and proved by:* byte-level log file; crash after any prefix of the memory writes; induction over entries.

*Status:* partial. Entries up to 1 MB always fit; for every log there is a longer entry on which the append aborts the process (refuted).

*Theorems:* `C74_append_partial` `C74_large_entry_refuted`

### C75 A call interrupted by a crash is done or not done

*Modelled and proved by:* world plus metadata file, log and host files as an event trace; replay invariant over all calls and crash points.

*Status:* partial. Proved for calls with at most one log record; refuted for unlink.

*Theorems:* `C75_all_or_nothing_partial` `C75_unlink_refuted`

### C76 Integer arguments arrive as they were passed

*Modelled and proved by:* the conversions as functions on machine words; arithmetic for all values.

*Status:* partial. Zero-extended and 64-bit values arrive unchanged; every sign-extended negative int is refused (refuted).

*Theorems:* `C76_integers_partial` `C76_sign_extended_refuted`

### C77 Timeouts last as long as requested

*Modelled and proved by:* the conversions as functions on machine words; arithmetic for all values.

*Status:* partial. timeval and millisecond timeouts are exact; a timespec with nanoseconds is never converted correctly (1-4 ns count as seconds, more aborts), invalid timevals are accepted or abort (refuted).

*Theorems:* `C77_timeouts_partial` `C77_timespec_refuted` `C77_invalid_timeval_refuted`

### C78 Socket addresses survive the boundary

*Modelled and proved by:* memory as a function from addresses to bytes; round trip and frame for all memories, addresses and buffer sizes.

*Status:* partial. Round trip for local and IPv4 addresses, writes stay in the buffer; IPv6 addresses cannot be passed back, local paths are read beyond the length given and short ones refused (refuted).

*Theorems:* `C78_round_trip_partial` `C78_within_buffer` `C78_only_given_bytes_partial` `C78_built_path` `C78_ipv6_refuted` `C78_local_path_refuted` `C78_short_local_refuted`

### C79 Textual IP addresses are read correctly

*Modelled and proved by:* characters as codes; complete characterisation of what is accepted.

*Status:* partial. IPv4 text characterised completely; IPv6 groups are read as decimal, a double colon between groups fills with zeros, :: and ::1 refused, nine groups abort (refuted).

*Theorems:* `C79_ipv4` `C79_device_list_partial` `C79_ipv6_decimal` `C79_ipv6_gap` `C79_ipv6_refuted` `C79_device_list_refuted`

### C80 The getdents buffer can be walked

*Modelled and proved by:* bytes of the buffers, tied to the file-system model by theorems about `step`.

*Status:* partial. Holds for names below 65509 bytes; a longer name has a record length that wraps (refuted).

*Theorems:* `C80_buffer_partial` `C80_unambiguous` `C80_long_name_refuted`

### C81 Strings handed back fit and are terminated

*Modelled and proved by:* bytes of the buffers, tied to the file-system model by theorems about `step`.

*Status:* partial. getcwd holds in full; gethostname truncates without NUL and getifaddrs never writes one (refuted).

*Theorems:* `C81_getcwd_buffer` `C81_getcwd_call` `C81_getcwd_then_chdir` `C81_names_partial` `C81_no_nul_refuted`

### C82 Descriptor sets are sets

*Modelled and proved by:* sixteen 64-bit words; bit lemmas; induction over the kernel's answer.

*Status:* partial. Set operations hold in full; the translation of the kernel's answer misses duplicated descriptors (refuted).

*Theorems:* `C82_set_operations` `C82_kernel_answer_partial` `C82_shared_refuted`

### C83 No socket call brings the runtime down

*Modelled and proved by:* NetModel returns Dies wherever the code unwraps, subtracts or shifts out of range. Case analysis over all calls with the structural invariants (handles, pipes, inodes, descriptor numbers); counterexample histories for the rest.

*Status:* partial. Proved for set-up calls in every reachable state and for data and readiness calls in cages whose sockets are all unconnected, listening at an address, or fully connected. False in general: connect after a failed bind or when the made-up name exists, socketpair in the latter case, accept and select on an unbound listening socket, transfers on a connection whose client name was unlinked before accept, closing both descriptors of a duplicated bound socket, and fork after that, all abort.

*Theorems:* `C83_setup_partial` `C83_data_partial` `C83_connect_refuted` `C83_connect_name_refuted` `C83_socketpair_refuted` `C83_accept_refuted` `C83_select_refuted` `C83_transfer_refuted` `C83_close_refuted` `C83_fork_refuted`

### C84 A local connect reaches a listening socket

*Modelled and proved by:* Invariant over histories: an address is in the bound set only after a successful bind and not after an unlink; counterexample histories.

*Status:* partial. Proved: connect to an address never bound, or unlinked and not bound again, fails, makes no request and changes no socket's state. False in general: an address bound by a socket that does not listen, or whose listening socket was closed, accepts connects (and a blocking one waits for ever).

*Theorems:* `C84_unbound_partial` `C84_unlinked_partial` `C84_bound_refuted` `C84_closed_refuted` `C84_blocking_refuted`

### C85 Descriptor numbers handed out under concurrency

*Modelled and proved by:* FdRaceModel: small-step model of the descriptor table, one lock per entry, one transition per lock section. Invariant: what the returned calls say is open is what the table holds.

*Status:* proved. All interleavings of any number of threads; shared locks are modelled as exclusive ones.

*Theorems:* `C85_open_unused` `C85_distinct` `C85_use` `C85_dup2` `C85_dup2_fails` `C85_close_fails`

### C86 Descriptor calls terminate under concurrency

*Modelled and proved by:* FdRaceModel. A decreasing measure bounds the steps of every schedule; with dup2 calls ordered by some ranking the holder of the highest lock can always move. Deadlock of two crossed dup2 calls as counterexample.

*Status:* partial. Proved for dup2 calls that go upwards in some order of the numbers, and a bound on the steps of every schedule. Refuted in general: dup2(0,1) and dup2(1,0) in two threads stop both for ever.

*Theorems:* `C86_completes_partial` `C86_bounded` `C86_deadlock_refuted`

### C87 Reference counts under concurrency

*Modelled and proved by:* FdRaceModel. Invariant: the count of an object is the number of entries that refer to it and for which no thread has already counted down; counterexample schedules for the overlaps that break it.

*Status:* partial. Proved for histories in which overlapping calls do not close or replace the same number and no dup2 overlaps an allocation. Refuted in general: two closes of one descriptor abort the runtime or drop a reference in use; a dup2 overlapping an open leaks a reference.

*Theorems:* `C87_counts_partial` `C87_no_abort_partial` `C87_kept_partial` `C87_two_closes_refuted` `C87_lost_reference_refuted` `C87_leak_refuted`

### C88 Lowest free descriptor under concurrency

*Modelled and proved by:* FdRaceModel. Invariant on the scan: every number passed over was open, or about to be looked at by a call of another thread, at some moment of the call; counterexample schedules.

*Status:* partial. Proved: every number passed over was open or subject of another call at some moment of the call, so an open that overlaps no call returns the lowest. Refuted in general: a call on a number that is not open makes open pass it over, and a failing open makes another one fail with ENFILE.

*Theorems:* `C88_lowest_partial` `C88_full_partial` `C88_alone_partial` `C88_alone_full_partial` `C88_skips_refuted` `C88_spurious_enfile_refuted`

### C89 Kernel sockets are neither leaked nor used after close

*Modelled and proved by:* InetModel. Every call is a sequence of small moves on one socket; invariant: the kernel sockets open after the calls made so far are those of the sockets with a descriptor, by induction over histories.

*Status:* proved. For every history and all kernel answers.

*Theorems:* `C89_kernel_sockets` `C89_all_closed` `C89_unshared` `C89_own_calls`

### C90 Data goes over connections only and a socket is connected once

*Modelled and proved by:* Invariant: a socket taken for connected has a kernel connection or was shut down; exact form of the calls that send; counterexample histories (shutdown before connect, retry after a failed connect).

*Status:* partial. Holds for sockets never shut down. Refuted: a shutdown for reading before connect makes the library send on a socket without connection and refuse to connect; a failed connect is not retried (the library binds the kernel socket a second time).

*Theorems:* `C90_send_partial` `C90_connect_partial` `C90_again_partial` `C90_send_refuted` `C90_retry_refuted`

### C91 The names of a socket are the kernel's

*Modelled and proved by:* Invariants on the local and remote name from the naming call on, preserved by every call but shutdown; counterexample histories for connect, accept and a refused bind.

*Status:* partial. Holds for names given by bind, for the peer of connect and accept, until a shutdown. Refuted for the local name after connect, after accept and after a refused bind.

*Theorems:* `C91_bound_partial` `C91_peer_partial` `C91_accepted_partial` `C91_connect_refuted` `C91_accept_refuted` `C91_failed_bind_refuted`

### C92 A port belongs to one socket at a time

*Modelled and proved by:* Simulation of the port table by a list of reservations (PortProofs), one for each socket with a name, for histories in which no bind was refused; counterexample histories otherwise.

*Status:* partial. Holds while chosen ports are asked for on all addresses and no bind is refused. Refuted: closing a socket whose bind was refused frees another's port; a port taken by connect never comes back; all IPv6 addresses cannot be bound.

*Theorems:* `C92_apart_partial` `C92_free_partial` `C92_given_away_refuted` `C92_lost_refuted` `C92_ipv6_refuted`

### C93 A datagram goes where it was sent

*Modelled and proved by:* Form of the calls that pass a datagram to the kernel; invariant relating the stored peer to the history of connects; counterexample histories.

*Status:* partial. Destination and bytes hold for every history (C93_dest needs no condition). Missing: filtering by the kernel, which is never told the peer. Refuted: connect does not reach the kernel; a failed connect sets the peer; peeking consumes the datagram.

*Theorems:* `C93_dest` `C93_recv_partial` `C93_tcp_only` `C93_connect_refuted` `C93_failed_refuted` `C93_peek_refuted`

### C94 O_NONBLOCK decides whether a call may wait

*Modelled and proved by:* Invariant relating the kernel socket's mode to the calls that set it; case analysis of receive and accept; counterexample histories for the places where the two modes part.

*Status:* partial. Holds for receives on streams and for accept; F_GETFL and F_SETFL agree with the descriptor. Refuted: a non-blocking receive leaves the kernel socket blocking; O_NONBLOCK set before the kernel socket exists is lost; a datagram receive then waits; an accepted socket shows O_NONBLOCK but is blocking.

*Theorems:* `C94_recv_partial` `C94_accept_partial` `C94_getfl` `C94_set` `C94_created_partial` `C94_left_blocking_refuted` `C94_early_refuted` `C94_udp_refuted` `C94_accepted_refuted`

### C95 A stream is read in order, without loss or repetition

*Modelled and proved by:* Invariant: bytes handed out by the kernel = bytes read so far ++ bytes kept from peeks, for every stream socket, over all histories.

*Status:* proved. For every history and all kernel answers.

*Theorems:* `C95_prefix` `C95_next` `C95_fits`

### C96 select reports the sockets the kernel reports

*Modelled and proved by:* Invariant: a descriptor through which the kernel socket was connected, listened on or accepted carries the kernel's number until it is closed; counterexample histories.

*Status:* partial. Nothing unreadable is reported; what was connected, listened on or accepted through a descriptor is reported. Refuted: bound datagram sockets, copies made before connect and peeked bytes are not reported; everything is reported writable; select on a connection just made hangs.

*Theorems:* `C96_sound` `C96_complete_partial` `C96_write_partial` `C96_udp_refuted` `C96_copy_refuted` `C96_peeked_refuted` `C96_write_refuted` `C96_hang_refuted`

### C97 No call on an INET socket aborts the process

*Modelled and proved by:* Invariants for the unwraps reached by each call (kernel socket present when the state says so, ports held by named sockets), giving totality of the step function; aborting histories.

*Status:* partial. Holds while no bind was refused or named a local address, nobody used shutdown or connected to 0.0.0.0:0, and descriptor numbers are in range. Refuted otherwise, with six aborting histories.

*Theorems:* `C97_answers_partial` `C97_listen_refuted` `C97_send_refuted` `C97_shutdown_refuted` `C97_accept_refuted` `C97_close_refuted` `C97_port_refuted`

### C98 Calls on the same names at the same time have the effect of some order

*Modelled and proved by:* Small-step model of the name calls with one step per critical section; for each bad interleaving a schedule, and all orders of the calls enumerated to show that none has that outcome.

*Status:* partial. Refuted: no lock spans the walk and the changes that follow. Nine pairs of calls with outcomes no order has: stat during mkdir aborts, two unlinks abort, unlink and rename abort, open and unlink leave a descriptor without object, link and unlink leave a name without object, rmdir and create lose the file, two mkdirs both succeed, a late mkdir drops a directory with its contents, two creating opens get different files. What holds is C99.

*Theorems:* `C98_stat_mkdir_refuted` `C98_unlink_unlink_refuted` `C98_unlink_rename_refuted` `C98_open_unlink_refuted` `C98_link_unlink_refuted` `C98_rmdir_create_refuted` `C98_mkdir_mkdir_refuted` `C98_late_mkdir_refuted` `C98_create_create_refuted`

### C99 Processes that work on separate names do not disturb each other

*Modelled and proved by:* Ownership of objects by base names as an invariant of all interleavings, steps of different processes commute, so every run can be sorted into one call at a time; a call made alone is shown equal to the step function of the sequential model.

*Status:* partial. Proved for ten calls on names (stat, chmod, open, mkdir, mknod, link, unlink, rmdir, rename, close), any number of processes and all interleavings: the run equals one with the calls in turn, an abort happens only if it can in turn; the hypothesis holds after every history for separate names; a call alone is the step of the sequential model. Missing: file contents, times, the log, chdir and the calls on descriptors.

*Theorems:* `C99_serial_partial` `C99_abort_partial` `C99_separate` `C99_alone`

### C100 Overlapping file-system calls come to an end

*Modelled and proved by:* A measure that every step decreases; a walk holds one shared lock and wants only shared ones, so some process can always move. The same when the map locks groups of objects: such runs are a subset of the others.

*Status:* proved. The bound on the number of steps holds for all runs; no deadlock and a way to the end from every state, for locks per object and for every grouping of the objects into locks (shards). An abort of a process counts as its end. Locks of the log are not part of this model.

*Theorems:* `C100_bounded` `C100_no_deadlock` `C100_ends` `C100_groups_same_runs` `C100_groups_no_deadlock` `C100_groups_ends`

### C101 A crash after calls of several processes loses nothing that returned

*Modelled and proved by:* Small-step model of log_metadata (copy under the lock of the object, append under the lock of the log); invariant for objects with one writer, every entry is a state the object had; a schedule in which an older copy is appended last.

*Status:* partial. Refuted for objects that several processes change: log_metadata copies the object and appends the copy under different locks, so two processes that create names in one directory can leave the older copy last, and the name of a call that returned is lost. Proved for all interleavings: an object with one writer is found as left; one process alone loses nothing; every object is found in a state it had.

*Theorems:* `C101_found` `C101_shared_directory_refuted` `C101_own_objects_partial` `C101_alone` `C101_some_time`

### C102 Copying a host tree puts every file at its path and touches nothing else

*Modelled and proved by:* Model of the copy tool as a program of system calls on the file system model; induction over the tree and over the directories on the way; witnesses for empty directories, existing directories and hard links.

*Status:* partial. Whatever it does, the tool only adds (C102_only_adds, no side condition). The files are there with their bytes if nothing is in the way, the root is no destination, destinations are not hard links of each other and a descriptor is free. Refuted: empty directories are not copied; a file onto a directory aborts (an empty one reports success); destinations that are hard links all get the last bytes.

*Theorems:* `C102_only_adds` `C102_copied_partial` `C102_empty_dir_refuted` `C102_onto_dir_refuted` `C102_hard_link_refuted`

### C103 Updating writes only what differs and leaves other names of a replaced file alone

*Modelled and proved by:* Model of the update tool on the same base; the update of one file composes open, read, close, unlink and copy; induction over the tree, the files being apart; witnesses for an empty file in a missing directory and for a directory without write permission.

*Status:* partial. Full effect if nothing is in the way, existing files are below 2 GiB in writable directories, and an empty new file has its directory. Refuted: an empty file whose directory is missing aborts the tool; in a directory without write permission the file is written in place, so its other names change.

*Theorems:* `C103_updated_partial` `C103_empty_file_refuted` `C103_readonly_dir_refuted`

### C104 Calls that use the working directory come to an end

*Modelled and proved by:* Each call is its list of lock operations over one directory tree. A rank of lock requests such that whoever holds a lock asks only for requests of lower rank than those it blocks; the waiting request of least rank can then go on. Witness interleavings for the excluded cases.

*Status:* partial. Proved for all interleavings if no process forks in one thread while another of its threads changes directory and fchdir is used only where the locks of the map follow the tree (always if each object has its own lock, or if fchdir is not used). Refuted without these conditions: fork and chdir wait for each other; fchdir on the root, or on a directory that shares a lock with its parent, waits for itself; two calls of fchdir can wait for each other.

*Theorems:* `C104_ends_partial` `C104_no_fchdir_partial` `C104_own_locks_partial` `C104_fork_chdir_refuted` `C104_fchdir_same_group` `C104_fchdir_root_refuted` `C104_fchdir_crossing_refuted`

### C105 The file system behaves as a map from paths to files

*Modelled and proved by:* The machine is written out in FsViewSpec (no names of the model's helpers; only types of calls, answers and constants); its state has paths, objects, processes and the contents of pipes. Refinement: the relation shows between a world and a view is kept by each of the 35 calls (FsView1-5, FsViewDir for the path of an open directory and its listing, FsViewPipe for pipes), then induction over histories. Existence of a view for every reachable world by enumerating the paths layer by layer; the depth is bounded because a directory has a larger number than its parent (FsView6). Programs that adapt to the answers: induction over the program (ToolProofs1).

*Status:* partial. Every history of all 35 calls (files, directories with their listings, devices, pipes, epoll descriptors, processes), from the first start and from every reachable state, gives the answers of the machine in FsViewSpec, and every reachable state has a view. Not covered: calls on a descriptor of a directory that was removed, dup2 of an epoll descriptor onto an open number, pipe2 with exactly one number free, and calls that damage the tables (fork or exec onto a live process, unlink in a directory that is not writable, rename onto an existing name in the same directory: C03, C04, C10, C11, C16). The same for programs that choose each call by the answers so far.

*Theorems:* `C105_call_partial` `C105_history_partial` `C105_from_start_partial` `C105_has_view` `C105_only_view_partial` `C105_program_partial`

### C106 No file-system call brings the runtime down

*Modelled and proved by:* A Boolean predicate aborts over the views of C105 lists the aborting combinations (FsAbortSpec). For each of the 35 calls it is proved that the model panics exactly when the predicate holds (FsView7, FsView8), using the invariants that open objects exist, link counts are positive and host files are there. With C105 this gives total correctness of histories. The claim itself is refuted by eight histories.

*Status:* partial. The claim is false of the code (refuted by eight histories); proved instead: the exact condition under which each of the 35 calls aborts, and total correctness of the histories without such calls. Missing: the calls that C105 excludes.

*Theorems:* `C106_refuted` `C106_exact_partial` `C106_history_partial` `C106_total_partial` `C106_safe_partial`

### C107 A call number and its six words mean what the manual says

*Modelled and proved by:* EntryModel models the dispatcher's cases for 38 calls as a function from number, words and memory to a call of FsModel. EntrySpec gives an independent table of signatures, a relation between words and values, and the meaning of each call. Proof by relating every case of the dispatcher to a generic left-to-right chain over the table (EntryProofs2); strings via equivalence of the validation loop with the Unicode definition of UTF-8 (EntryProofs).

*Status:* partial. every call with well-formed words acts as the named call with these values; the first bad word decides the error and nothing happens; unknown numbers answer -1; words after the parameters do not matter; a string without an end aborts; refuted: a parameter that the call does not need (mode without O_CREAT, third word of F_GETFL, buffer of no bytes) can make it fail

*Theorems:* `C107_understood` `C107_refused` `C107_unknown` `C107_cases` `C107_values_unique` `C107_extra` `C107_needless_word_refuted`

### C108 Calls write only into the caller's buffers

*Modelled and proved by:* The shape and size of every result of FsModel's step is bounded (EntryProofs3), then the writes of the delivery are confined to the area that the spec computes from number and words; induction over programs (EntryProofs4). The second half of the claim is refuted for fstatfs and pipe, proved for the others.

*Status:* partial. calls write only inside the area described by number and words, per call and along programs; failing calls change no memory except fstatfs and pipe (refuted for these) and buffers of 2 GiB and more

*Theorems:* `C108_call` `C108_program` `C108_failed_partial` `C108_failed_refuted`

### C109 Results are delivered completely to the caller's memory

*Modelled and proved by:* Per result shape: the bytes stored at the offsets of the structure are read back by the spec's field reader (EntryProofs5). The completeness claim is refuted for the stat structure.

*Status:* partial. bytes, stat fields, directory records, path and pipe descriptors lie in memory after the call; statfs and fstatfs fill the structure; refuted: times, and block counts of devices, keep the caller's old bytes; random devices excepted (their bytes are arbitrary)

*Theorems:* `C109_delivered` `C109_statfs` `C109_fstatfs_partial` `C109_stat_refuted`

### C110 Calls read only their arguments

*Modelled and proved by:* Non-interference: decode depends only on the bytes the spec lists, the delivery does not depend on memory (EntryProofs5).

*Status:* proved. non-interference for all pairs of memories

*Theorems:* `C110_reads_only`

### C111 Programs at the binary interface see the specified file system

*Modelled and proved by:* Induction over programs for the states; composition of C107 and C109 with C105 and C106; composition with the exact read and write lemmas for the round trip (EntryProofs6).

*Status:* partial. all programs stay in states reached by well-formed calls; the path-to-object specification predicts abort, answer, state and memory for the calls of C105; write-then-pread round trip through memory

*Theorems:* `C111_states` `C111_view_partial` `C111_round_trip`

### C112 What is written to stdout and stderr is printed

*Modelled and proved by:* The host's output is a component of the state; per call, and by induction over programs (EntryProofs5, 6). The claim itself is refuted.

*Status:* partial. text is printed in order and nothing else prints; refuted: bytes that are not UTF-8 per call are lost while write reports success, writev answers EIO, writev to stdin prints

*Theorems:* `C112_printed_partial` `C112_grows` `C112_silent` `C112_bytes_refuted`

### C113 Only marked threads of a cancelled process end

*Modelled and proved by:* A small-step system of threads of one process (CancelModel); what each event does to each thread, the table, the mutexes and the pipes, then invariants over histories (CancelProofs). That the runtime goes on is refuted.

*Status:* partial. Who ends, when, and with what effect is proved; that the runtime goes on is refuted: a thread that was never registered and comes to a cancel point makes check_thread unwrap nothing, which aborts the runtime with all its processes.

*Theorems:* `C113_who` `C113_moment` `C113_no_return` `C113_aborts` `C113_unregistered_refuted`

### C114 A marked thread that waits in a cancelled process comes to its end

*Modelled and proved by:* A count of the thread's own steps that decreases under every interleaving, with invariants for the pipe and the mutex (CancelProofs2). True of readers; for waiters with what is missing named; refuted for late waiters, two waiters of one mutex, writers and lockers, from invariants for the threads that never get on.

*Status:* partial. Proved for readers of pipes under every interleaving and for a waiter that alone wants its mutex. Refuted: a thread that begins to wait after the cancellation sleeps for ever; of two waiters with one mutex at most one ends, because the first dies with the mutex held; a writer to a full pipe and a thread that wants a mutex of a caught thread have no cancel point.

*Theorems:* `C114_reader` `C114_empty_pipe` `C114_waiter_partial` `C114_asleep` `C114_orphaned_mutex` `C114_writer` `C114_late_waiter_refuted` `C114_two_waiters_refuted` `C114_writer_refuted` `C114_locker_refuted`

### C115 deltree removes the tree and nothing else

*Modelled and proved by:* The tool as a program that chooses each call by the answers so far (ToolModel). Its run on the machine of C105 is followed by induction over the depth of the tree and over the entries (ToolProofs2); a simulation lemma carries it to the code's own state, with no abort (ToolProofs1, from C105 and C106). True when modes are truthful and listings fit the buffer; refuted for larger directories and for directories whose mode says otherwise.

*Status:* partial. True of trees whose modes are truthful and whose directories' records fit into the tool's 65536-byte buffer, also at the root (format). Refuted otherwise: a directory with more records keeps some of them, because the offset is kept while entries are removed; a directory made with the type bits of a file stays.

*Theorems:* `C115_deltree_partial` `C115_format_partial` `C115_deltree_refuted` `C115_deltree_mode_refuted`

### C116 ls and tree show every name once and change nothing

*Modelled and proved by:* As C115: the rounds of getdents concatenate to the whole listing (ToolProofs3), induction over the depth for tree; the drawing is specified inductively and shown to have one line per name (ToolProofs4).

*Status:* partial. True of directories of any size and depth with truthful modes, names of at most 65508 bytes and enough free descriptors. Refuted for longer names: getdents answers 0, which is taken for the end.

*Theorems:* `C116_ls_partial` `C116_ls_file` `C116_missing` `C116_tree_partial` `C116_drawing_complete` `C116_printed` `C116_ls_refuted`

### C117 A mapping gives no more rights than the descriptor it was made from

*Modelled and proved by:* Model mmap and munmap over the file-system model, with a memory of mappings on host files, and loads and stores as further operations (`MapModel`). Invariant: every writable shared mapping has its grant in the history; prove what a store can change, the exact rules of mmap, and when mmap stops the library.

*Status:* proved. The abort for descriptor numbers outside the table is documented in the source as a bug; C117_aborts states it exactly. The kernel's answer is arbitrary within host_may.

*Theorems:* `C117_store_rights` `C117_store_frame` `C117_private` `C117_mmap` `C117_rules_exclusive` `C117_aborts`

### C118 Shared mappings and file calls see the same bytes

*Modelled and proved by:* Count the removals of every host file, so that a mapping knows whether it still shows the file in use. Prove agreement of loads with all readers while attached, what ends the attachment, and what a detached mapping shows; refute agreement in general: open with O_TRUNC removes the host file and makes a new one.

*Status:* partial. False in general: open with O_TRUNC (and creat) removes the host file and makes a new one, so an existing mapping keeps the old bytes and stores through it are lost (C118_coherent_refuted, C118_stores_lost_refuted). Proved: agreement while attached, and that only truncating opens, the end of the file, or a new mapping over the address end the attachment.

*Theorems:* `C118_load` `C118_store` `C118_store_load` `C118_fresh` `C118_stays_partial` `C118_detached` `C118_detached_store` `C118_coherent_refuted` `C118_stores_lost_refuted` `C118_unmap`

### C119 The answers of mmap and munmap tell what happened

*Modelled and proved by:* Prove what the 32-bit answer tells (whether a mapping was made, and the address modulo 2^32); refute the documented answers: the whole address, the code when the kernel refuses (always -1, EPERM), 0 for munmap.

*Status:* partial. Whether a mapping was made can be told, and the address modulo 2^32. Refuted: the whole address, documented codes when the kernel refuses (the answer is always -1), 0 as the answer of a successful munmap.

*Theorems:* `C119_mmap_told` `C119_munmap_told` `C119_address_refuted` `C119_errno_refuted` `C119_munmap_errno_refuted` `C119_munmap_refuted`

### C120 The dispatcher gives the socket calls the meaning of their words

*Modelled and proved by:* Model the dispatcher's cases for these calls and the converters over a total byte memory, on top of NetModel (`WireModel`). Specify separately, as relations, what the words ask for and when they are refused (`WireSpec.asks`, `declines`); prove agreement with the decoder, uniqueness and completeness of the cases.

*Status:* proved. All 25 calls; the full claim fails where the code refuses a null event for EPOLL_CTL_DEL (C120_del_refuted), and select aborts for exactly the timeouts of C120_timeout_aborts. Addresses outside the root directory, of other families, and recvfrom with an address are outside the model.

*Theorems:* `C120_understood` `C120_refused` `C120_unique` `C120_cases` `C120_timeout_aborts` `C120_paths` `C120_del_refuted`

### C121 Socket calls write memory only where their result belongs

*Modelled and proved by:* Specify the addresses that each call may change; prove the frame for all calls, and that failing and waiting calls change nothing; refute this for poll, pipe and socketpair.

*Status:* partial. The frame holds for all calls; that failing or waiting calls change nothing holds for all but poll and pipe, for which it is refuted, as is the meaning of socketpair's answer with a full table.

*Theorems:* `C121_frame` `C121_failed_partial` `C121_waits_partial` `C121_poll_refuted` `C121_pipe_refuted` `C121_pair_refuted`

### C122 select, poll and epoll_wait store in memory what is ready

*Modelled and proved by:* Read the results from memory with a separate specification of sets and records, and connect them with what later calls would do (as C60); refute for the set of exceptional conditions.

*Status:* partial. Exactness for readers (sockets, pipes, listeners) and for the write ends of pipes, as in C60; every event of epoll_wait, and none left out if there was room. Missing: sockets as writers, which are always reported (C60_writable_refuted), and the set of exceptional conditions, which is refuted.

*Theorems:* `C122_select_partial` `C122_poll_partial` `C122_epoll_partial` `C122_except_refuted` `C122_select_writers` `C122_poll_exact` `C122_epoll_exact`

### C123 Bytes travel between processes' memories over local sockets unchanged

*Modelled and proved by:* Combine decoding and delivery with the conservation of bytes in a stream (C57); prove that programs stay in reachable states.

*Status:* proved. For stream sockets of AF_UNIX.

*Theorems:* `C123_reached` `C123_received` `C123_sent` `C123_transferred`

### C124 getsockname, getpeername and accept agree on the addresses of local sockets

*Modelled and proved by:* Prove that a local address, once set, is kept by every call (WireKeep), and combine with the identity of connection requests (C59); refute for failed binds and for accept with a full table.

*Status:* proved. The claim holds after calls that succeed; a failed bind and accept with a full table store addresses that are wrong (refuted).

*Theorems:* `C124_bound` `C124_unbound` `C124_connected` `C124_pair` `C124_accepted` `C124_errors` `C124_failed_bind_refuted` `C124_accept_full_refuted`

### C125 Processes that attach a shared memory segment see the same bytes

*Modelled and proved by:* the map of the address space and the bytes of segments beside IpcModel's tables; a load against the newest store found by reading the history backwards, invariant over all events.

*Status:* proved. Loads, stores and two attachments of one segment, in all histories of any number of processes.

*Theorems:* `C125_load` `C125_store` `C125_shared`

### C126 A new segment is empty and its contents stay until they are overwritten

*Modelled and proved by:* corollaries of the same invariant with freshness of identifiers; induction over the events after a state.

*Status:* proved. New segments are empty; everything but a store keeps the bytes; a store changes one byte.

*Theorems:* `C126_fresh` `C126_kept` `C126_store_one`

### C127 The table of attachments is what lies in memory

*Modelled and proved by:* invariant between IpcSpec's attachments and the address space read from the history, over histories without failing or overlapping attaches; refuted for overlapping ones.

*Status:* partial. Proved for histories in which every attach succeeded, fits and covers no other, and children get a copy of the memory; refuted when one attach covers another.

*Theorems:* `C127_table_partial` `C127_whole_partial` `C127_detach_partial` `C127_count_partial` `C127_over_refuted`

### C128 Attaching shared memory changes the memory of the caller only

*Modelled and proved by:* frame condition on the address space per event, with the invariant that attachments fit; refuted for attaches past the end and for sizes above 2^32.

*Status:* partial. Proved when every attach succeeded and fits into the memory of its process; refuted for attaches that reach past its end and for segments whose size exceeds 2^32.

*Theorems:* `C128_other_partial` `C128_spill_refuted` `C128_size_refuted`

### C129 The numbers and words of process, signal, timer, shared memory and lock calls mean the documented calls

*Modelled and proved by:* decoding relation per call number (table of argument kinds) against the dispatcher model, for all words; refinement of histories of numbered calls to the histories of SigModel and IpcModel.

*Status:* proved. decoding of the numbers and words of 35 calls, for all words; every history of numbered calls is a history of the process and IPC models

*Theorems:* `C129_understood` `C129_refused` `C129_limit_aborts` `C129_cases` `C129_unique` `C129_other_numbers` `C129_history`

### C130 Process, signal, timer and shared memory calls write only the record they are given, and write the documented values there

*Modelled and proved by:* frame condition and stored fields per call, against the history specifications of C52 and C43; refuted for failing sigaction and sigprocmask and for the other timers.

*Status:* partial. frame and stored fields proved; failing sigaction and sigprocmask store the old value, setitimer of other timers stores nothing

*Theorems:* `C130_frame` `C130_action` `C130_mask` `C130_timer` `C130_segment` `C130_failed_partial` `C130_failed_refuted` `C130_other_timers_refuted`

### C131 sigaction, sigprocmask and setitimer set the given value, also if the same record receives the old one

*Modelled and proved by:* holds for records that do not overlap, and the action set is read back after any history; refuted by programs that use one record.

*Status:* partial. holds for records that do not overlap; with one record for both the new value is lost

*Theorems:* `C131_apart_partial` `C131_returned_partial` `C131_same_record_refuted`

### C132 Optional addresses and valid time limits are accepted

*Modelled and proved by:* holds for limits that the multiplication by 10^9 does not overflow; refuted for five nanoseconds in checking builds and for the null address.

*Status:* partial. holds for limits whose nanoseconds times 10^9 fit in 32 bits and for builds without overflow checks; a limit of five nanoseconds aborts, shmat of the null address is refused

*Theorems:* `C132_timed_partial` `C132_timed_refuted` `C132_null_refuted`

### C133 The quick calls are read and write

*Modelled and proved by:* step-by-step equality, induction over programs of EntryModel and of WireModel; refuted for null buffers.

*Status:* partial. Full for every buffer that is not null, for whole programs over files, pipes, streams, devices and sockets. Refuted for null buffers: the dispatcher answers EFAULT, the quick calls go on (a read or write of no bytes answers 0, a closed descriptor EBADF).

*Theorems:* `C133_files` `C133_sockets` `C133_null_refuted`

### C134 sync_file_range changes nothing and answers what the host says

*Modelled and proved by:* exact table of answers with the host's answer as a function; totality from the invariant of reachable worlds; refuted for numbers outside the table, unknown errors of the host and the converse of fsync.

*Status:* partial. Frame, exact answers, uniqueness, refused words, and an answer after any history for descriptors inside the table and errors that the library knows; where fsync answers 0 so does sync_file_range if the host does. Refuted: a number outside the table aborts instead of EBADF, an error of the host above 131 aborts, and fsync refuses read-only descriptors that sync_file_range accepts.

*Theorems:* `C134_frame` `C134_answer` `C134_unique` `C134_answers` `C134_refused` `C134_fsync` `C134_range_refuted` `C134_host_refuted` `C134_fsync_refuted`

### C135 ioctl switches O_NONBLOCK and nothing else

*Modelled and proved by:* exact table and frame, bit by bit; effect on the transfers of NetModel; refuted for duplicates, pipes, FIOASYNC and numbers outside the table.

*Status:* partial. Exact answers, frame (all but bit 11 of the flags of the descriptor), and the effect on read, write, send and recv, for local sockets and all other descriptors (INET sockets: C94); FIONBIO is a call of NetModel, so the theorems on local sockets cover histories with it. Refuted: a duplicate of the descriptor keeps its own bit, FIONBIO on a pipe is ENOTTY, FIOASYNC answers 0 and does nothing, a number outside the table aborts.

*Theorems:* `C135_ioctl` `C135_unique` `C135_files` `C135_effect` `C135_reachable` `C135_shared_refuted` `C135_pipe_refuted` `C135_async_refuted` `C135_range_refuted`

### C136 mmap and munmap can be called through the entry point as programs call them

*Modelled and proved by:* the words of the two calls determine one call of MapModel or a refusal; induction over programs; refuted for the null address and for a widened -1.

*Status:* partial. Meaning of the words, refusal, frame and answers proved for all programs; a null address and a widened descriptor -1, which most programs use, are refused always (refuted)

*Theorems:* `C136_program` `C136_words` `C136_senseless` `C136_ended` `C136_files` `C136_told` `C136_null_refuted` `C136_minus_one_refuted`

### C137 The words of a call on an internet socket mean one call, and its bytes and addresses pass unaltered

*Modelled and proved by:* a relation from words and memory to INET calls, sound, complete and functional; induction over programs to histories of InetModel; round trip of addresses; refuted for IPv6 addresses and for the name of an unbound IPv6 socket.

*Status:* partial. Meaning of the words, refusal, frame, room, what the kernel sees and the way back of IPv4 addresses proved for all programs; IPv6 addresses in the layout of the system are refused always, and getsockname of an unbound IPv6 socket ends the library (refuted)

*Theorems:* `C137_words` `C137_unique` `C137_program` `C137_refused` `C137_frame` `C137_room` `C137_kernel` `C137_sockname` `C137_peername` `C137_nameless_aborts` `C137_ipv6_refuted` `C137_name6_refuted`

### C138 Threads keep their masks and processes get their signals

*Modelled and proved by:* masks, main threads and existence as functions of the history (refinement by induction over calls of SigModel); the signals of every call determined by them; refuted for fork by a thread that is not the last one started.

*Status:* partial. Masks, answers of kill and exit and the signals of every call proved for all histories; refuted: the mask a child starts with is that of the thread that started last, not of the caller of fork; kill accepts every number; when the parent has just called exec and its thread has not started, exit of a child ends the library and an alarm fails at the same assertion

*Theorems:* `C138_masks` `C138_sent` `C138_kill` `C138_exit` `C138_caller_mask_refuted` `C138_exit_refuted` `C138_kill_number_refuted` `C138_alarm_refuted`

## Not modelled

* The host kernel's network stack.  `InetModel` takes its answers as arguments
  and records the calls made to it; `poll` and `epoll` of INET sockets, socket
  options other than SO_REUSEPORT and SO_REUSEADDR, and threads using one INET
  socket at the same time are left out.
* Datagram sockets of AF_UNIX,
  real time and file times, what pthread_exit unwinds, symbolic links and special files of the host in the copy tools
  (`lib_fs_utils.rs`), the dispatcher's cases for select, poll, epoll and options of INET sockets (`EntryModel` decodes the 38 calls on files, directories, descriptors and processes,
  `InetWireModel` the 15 on internet sockets, `WireModel` the 25 on local sockets, pipes and readiness, `GateModel` the 35 on processes, signals, timers, shared memory and locks).
* Weak memory: the small-step models are sequentially consistent.
* Locks of DashMap shards, except in `FsShard` and `CwdModel` and where one call
  certainly locks against itself.

## Trusted base

* Coq 8.16.1's kernel, including its conversion by `vm_compute`, and the
  compiled std++ and standard libraries.
* `Print Assumptions` is executed below every property theorem; for every one
  of them it prints `Closed under the global context`: no axiom is used, not
  even one of the standard library.
* That the model says what the Rust source says.  This tie is by reading only:
  each definition cites the lines it was transcribed from, and the mutation
  tests in `seeded/LOG.jsonl` show which theorems notice which wrong programs.
* The behaviour of the components that are not in the repository, as described
  in the headers of the models: Rust's `std::path`, `Duration`, `str::parse`,
  `parking_lot`, `DashMap`, the ring buffer, `serde_cbor` and the host kernel.
