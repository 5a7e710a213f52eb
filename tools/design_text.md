# Formal model of safeposix-rust in Rocq/Coq 8.16.1

The source under `/repo` is read as text.  The model in `rocq/theories` is an
executable Gallina transcription of the logic of the system calls; every
definition cites the file and lines it models and says where it simplifies.

## Layout

| file | contents |
|---|---|
| `Base.v` | outcomes, error numbers, flag constants, machine-word conversions, the tactic `run_ex` for concrete runs |
| `*Model.v`, `FsBoot.v` | executable models, no proofs |
| `*Spec.v` | small independent specifications used in the statements |
| `FsViewSpec.v` | a complete executable specification of the file-system calls in terms of paths and objects; `FsModel` is proved to refine it (C105) |
| `FsAbortSpec.v` | which of these calls abort, in the terms of `FsViewSpec.v` (C106) |
| `Props*.v` | `Theorem … / Proof by one lemma / Print Assumptions`, and the non-vacuity examples |
| all others | lemmas, invariants |

| group | models | what of `/repo/src` |
|---|---|---|
| paths and file system | `PathModel` `FsModel` | `safeposix/filesystem.rs`, `safeposix/cage.rs`, `interface/file.rs` (emulated files), the file, directory, descriptor and pipe calls of `safeposix/syscalls/fs_calls.rs`, fork, exec, exit of `sys_calls.rs`: 35 calls as one function `step` |
| start, recovery, shutdown | `FsBoot` `LogModel` | `filesystem.rs` (format, load, log, persist, fsck), `interface/file.rs` (mapped log), `dispatcher.rs` start and shutdown, `tools/lib_fs_utils.rs` 239-336 |
| pipes, threads | `PipeModel` `ExclModel` | `interface/pipe.rs`, the window of `open` between walk and insertion |
| names with threads | `FsRaceModel` | stat, chmod, open, mkdir, mknod, link, unlink, rmdir, rename, close of several processes at once: `metawalkandparent` step by step, each access to the inode table one step |
| shards | `FsShard` | the steps of `FsRaceModel` when the map locks groups of objects |
| working directory with threads | `CwdModel` | lock operations of chdir, fchdir, fork, getcwd and of calls that follow a path (`fs_calls.rs` 3113-3235, 5571-5585, `sys_calls.rs` 215-349, `filesystem.rs` 463-583); other locks are left out |
| copy tools | `FsCopyModel` | `tools/lib_fs_utils.rs` 17-237 (`cp`, `update`); the host is a tree of files and directories |
| other commands of the tool | `ToolModel` | `tools/lib_fs_utils.rs` 239-336, `tools/fs_utils.rs` 29-86 (`deltree`, `format`, `ls`, `tree`), as programs over the calls of `FsModel`; loops carry a number of iterations, and the theorems hold from some number on |
| memory-mapped files | `MapModel` | `fs_calls.rs` 4413-4507 (`mmap_syscall`), 4551-4570 (`munmap_syscall`), `misc.rs` 335-338 (`libc_mmap`), over the calls of `FsModel`. The kernel's part is modelled as one address space of all processes (as in the runtime, whose processes are threads of one host process), mappings on host files that outlive the removal of the file, private pages copied at the first store, and an answer of the kernel (an address or a refusal) chosen by the environment within the promises of `MapSpec.host_may`. Not modelled: MAP_GROWSDOWN and other flags, mremap, execution rights (any of the three protection bits allows a load), mappings larger than the address space |
| entry point of the socket calls | `WireModel` | `dispatcher.rs` 128-158, 295-297, 338-350 and the cases of the socket, pipe and readiness calls in 380-745; `types.rs` 222-311, 378-415, 501-707, 759-775; `net_calls.rs` 3364-3445, 4237-4390, 4485-4618, 4902-5051, 5199-5200; over the calls of `NetModel` and the memory of `AbiModel`. Simplified: one memory for all processes; local addresses are names in the root directory that do not begin with "sock". Left out (answer `Outside`): other addresses, recvfrom with an address, read and write of files and terminals |
| bytes of shared memory | `SegModel` | `shm.rs` 76-123 (`map_shm`, `unmap_shm`), `file.rs` 448-476, `misc.rs` 335-338, `fs_calls.rs` 5777-5923 (addresses in `shmat`, `shmdt`), over the calls of `IpcModel`. The kernel's map of the one host address space is part of the state; process `c` owns the 2^32 addresses from `c * 2^32` on. Simplified: the bytes of the last page behind a segment's size are shared too; the mapping without access made by shmdt does not fail; whether a child gets a copy of its parent's memory (the loader's work) is an argument of fork |
| entry point, processes, signals, timers, shared memory, locks | `GateModel` | `dispatcher.rs` 15-158 and the cases 374-379, 646-673, 787-935; converters `types.rs` 220-299, 404-414, 720-757, 784-826 and records 96-159; the order of reads and writes in `sys_calls.rs` 739-866 and `fs_calls.rs` 5927-5958; the calls are those of `SigModel` and `IpcModel`. Simplified: one memory for all processes; padding and the fields of IPC_STAT that `IpcModel` lacks (times, process numbers) hold arbitrary bytes |
| log with threads | `LogRaceModel` | `filesystem.rs` (`log_metadata`), the order of changes and log entries in the calls that change objects |
| descriptor table with threads | `FdRaceModel` | `cage.rs` (`get_next_fd`), the locking of `open`, `dup2`, `_close_helper`, and of calls on a descriptor |
| locks, semaphores | `SemModel` `LockModel` | `interface/misc.rs` (`RustSemaphore`, `AdvisoryLock`), their calls |
| shared memory, handles | `IpcModel` `ShmRaceModel` | `safeposix/shm.rs`, the shm, sem, mutex and cond calls |
| signals, timers, identity | `SigModel` | `sys_calls.rs`, `interface/timer.rs`, signal sets of `misc.rs` |
| ports | `PortModel` | `safeposix/net.rs` 221-523 |
| local sockets, readiness | `NetModel` `PeekModel` | AF_UNIX part of `net_calls.rs`: socket, bind, listen, connect, accept, socketpair, send/recv, shutdown, options, select, poll, epoll |
| INET sockets | `InetModel` | AF_INET and AF_INET6 part of `net_calls.rs` and `interface/comm.rs`: what the library does around the kernel calls, for all answers of the kernel; sockets in close, dup, dup2, fork, fcntl, ioctl |
| boundary | `AbiModel` | `interface/types.rs`, `interface/comm.rs` (addresses, descriptor sets), getcwd, gethostname, getifaddrs, getdents buffers |
| quick calls, sync_file_range, ioctl | `DirectModel` | `dispatcher.rs` 168-189, 251-259, 366-373; `types.rs` 222-264, 416-426; `file.rs` 130-143; `fs_calls.rs` 4026-4107 (`ioctl_syscall`), 5161-5219 (`sync_file_range_syscall`), over the states of `EntryModel` and `WireModel`. Simplified: the host's answer to sync_file_range is a function of file and arguments; a null buffer with a count above zero (undefined behaviour) is left open |
| entry point of mmap and munmap | `MapEntryModel` | `dispatcher.rs` 151-158, 210-235, 319-336; `types.rs` 222-237, 251-254, 266-269, 283-293, over the states of `MapModel` |
| entry point of the INET calls | `InetWireModel` | `dispatcher.rs` 137-158, 295-297, 338-350, 380-580; `types.rs` 222-299, 378-415, 501-628; `net_calls.rs` 158-311, 4237-4390; `comm.rs` 18-96, over the states of `InetModel` and the memory of `AbiModel`. Left out (answer `Outside`): IPv4 addresses whose padding is not zero, IPv6 addresses as results, recvfrom with an address, read and write of other descriptors, combinations that socket refuses |
| entry point | `EntryModel` | `dispatcher.rs` 15-935 (38 call numbers), converters and structures of `interface/types.rs`, strings in memory (`misc.rs` 330-333), what `write` and `writev` print, statfs and fstatfs |
| cancellation | `CancelModel` | `dispatcher.rs` 953-986, `cage.rs` 168-177, `misc.rs` 227-247, the cancel points of `read` on a pipe and of `cond_wait`, and the waits of `write` on a pipe and of `mutex_lock` that have none; small steps of the threads of one process |
| codecs | `CodecModel` `ErrnoModel` | device numbers, permission bits, error table |

## Conventions

* An aborted runtime (`panic!`, `unwrap` on `None`, out-of-range index, checked
  arithmetic overflow of a debug build) is the explicit outcome `Panic`, never a
  default value.
* Integers are `Z`.  Where the code truncates (`as i32`, `as u32`) or shifts in
  a machine word the truncation is written into the model.
* A call that has to wait is an explicit outcome in the sequential models; in
  the small-step models (`PipeModel`, `SemModel`, `LockModel`, `FdRaceModel`, `ExclModel`,
  `ShmRaceModel`, `PeekModel`, `FsRaceModel`, `FsShard`, `CwdModel`, `LogRaceModel`) each critical section is one step and the
  theorems quantify over all schedules of any number of threads.
* Host services (real files, sockets, clock, CBOR) are modelled abstractly (a
  map from file numbers to byte lists) or quantified over.
* A property that the code violates has a theorem `…_refuted` with a concrete
  history or a family of them (the finding) and, where a useful part holds, a
  theorem `…_partial`; the comment above it says what is missing.  Such a
  property has status `partial` in MANIFEST.json.
* The histories of the file-system theorems are given by
  `FsReachSpec.reach`.  It excludes, in the predicate `tame`, exactly the
  calls by which the code damages its own tables (fork or exec onto a live
  process number, unlink failing with EPERM, dup2 of an epoll descriptor onto
  an open one, pipe2 with one free descriptor and, for some theorems, rename
  onto an existing name).  Each of these is shown reachable and harmful by a
  `_refuted` theorem (C03, C04, C08, C11, C16, C18, C35, C36).  Histories may
  contain any number of clean shutdowns and starts, in worlds that satisfy
  `can_stop` (no file renamed since the last start, /tmp writable); what goes
  wrong otherwise is shown by `_refuted` theorems of C41.

## Properties

@@TABLE@@
## Not modelled

* The host kernel's network stack.  `InetModel` takes its answers as arguments
  and records the calls made to it; `poll` and `epoll` of INET sockets, socket
  options other than SO_REUSEPORT and SO_REUSEADDR, and threads using one INET
  socket at the same time are left out.
* Datagram sockets of AF_UNIX,
  real time and file times, what pthread_exit unwinds, symbolic links and special files of the host in the copy tools
  (`lib_fs_utils.rs`), the dispatcher's cases for select, poll, epoll and options of INET sockets (`EntryModel` decodes the 38 calls on files, directories, descriptors and processes,
  `InetWireModel` the 15 on internet sockets, `WireModel` the 25 on local sockets, pipes and readiness, `GateModel` the 35 on processes, signals, timers, shared memory and locks).
* Weak memory: the small-step models are sequentially consistent.
* Locks of DashMap shards, except in `FsShard` and `CwdModel` and where one call
  certainly locks against itself.

## Trusted base

* Coq 8.16.1's kernel, including its conversion by `vm_compute`, and the
  compiled std++ and standard libraries.
* `Print Assumptions` is executed below every property theorem; for every one
  of them it prints `Closed under the global context`: no axiom is used, not
  even one of the standard library.
* That the model says what the Rust source says.  This tie is by reading only:
  each definition cites the lines it was transcribed from, and the mutation
  tests in `seeded/LOG.jsonl` show which theorems notice which wrong programs.
* The behaviour of the components that are not in the repository, as described
  in the headers of the models: Rust's `std::path`, `Duration`, `str::parse`,
  `parking_lot`, `DashMap`, the ring buffer, `serde_cbor` and the host kernel.
