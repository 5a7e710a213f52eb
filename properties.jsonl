{"id": "C01", "title": "Path normalisation is canonical and cannot escape the root", "statement": "Whatever path string a program passes and whatever its working directory is, the path that is actually looked up is absolute, contains no empty, '.' or '..' component, is a fixed point of normalisation, never climbs above '/', and for an absolute path does not depend on the working directory.", "quantifier": "all path strings, all canonical working directories", "why_tests_cant": "the set of path strings is infinite and the interesting ones mix separators, dots and climbs of any depth", "anchors": ["src/safeposix/filesystem.rs::normpath", "src/safeposix/filesystem.rs::convpath"]}
{"id": "C02", "title": "Equal spellings resolve to the same object", "statement": "Two path strings with the same normal form resolve to the same object (or the same failure) in every file-system state, and resolving a path component by component agrees with resolving its directory first and then the last name inside it.", "quantifier": "all path strings, all directory trees", "why_tests_cant": "needs every tree and every spelling", "anchors": ["src/safeposix/filesystem.rs::metawalkandparent", "src/safeposix/filesystem.rs::metawalk", "src/safeposix/filesystem.rs::normpath"]}
{"id": "C03", "title": "No dangling names", "statement": "After any sequence of system calls by any number of processes, every name in every directory refers to an existing object, so that path lookup never aborts the runtime.", "quantifier": "all finite histories of system calls from a freshly formatted file system", "why_tests_cant": "the failing history may be arbitrarily long; a test checks one history", "anchors": ["src/safeposix/filesystem.rs::metawalkandparent", "src/safeposix/syscalls/fs_calls.rs::unlink_syscall", "src/safeposix/syscalls/fs_calls.rs::rmdir_syscall", "src/safeposix/syscalls/fs_calls.rs::rename_syscall"]}
{"id": "C04", "title": "Link count equals number of names", "statement": "After any history the link count that stat reports for a regular file or device equals the number of directory entries that refer to it.", "quantifier": "all histories, all objects", "why_tests_cant": "an accounting invariant over unbounded histories", "anchors": ["src/safeposix/syscalls/fs_calls.rs::link_syscall", "src/safeposix/syscalls/fs_calls.rs::unlink_syscall", "src/safeposix/syscalls/fs_calls.rs::rename_syscall", "src/safeposix/syscalls/fs_calls.rs::stat_syscall"]}
{"id": "C05", "title": "rmdir removes exactly empty directories", "statement": "rmdir of a directory whose parent and itself are writable and which is not the root succeeds exactly when the directory contains no entries besides '.' and '..'; a non-empty directory is never removed and an empty one is never refused as non-empty.", "quantifier": "all histories, all directories", "why_tests_cant": "depends on a counter kept consistent by every other call", "anchors": ["src/safeposix/syscalls/fs_calls.rs::rmdir_syscall", "src/safeposix/syscalls/fs_calls.rs::remove_from_parent_dir"]}
{"id": "C06", "title": "Creation makes exactly one fresh object", "statement": "A successful creating open, mkdir or mknod makes the path resolve to an object that did not exist before, of the requested kind with the requested permission bits, and leaves every other path, object and descriptor exactly as it was.", "quantifier": "all states reachable by any history, all paths and modes", "why_tests_cant": "the frame condition ranges over all other objects", "anchors": ["src/safeposix/syscalls/fs_calls.rs::open_syscall", "src/safeposix/syscalls/fs_calls.rs::mkdir_syscall", "src/safeposix/syscalls/fs_calls.rs::mknod_syscall"]}
{"id": "C07", "title": "Exclusive creation", "statement": "open with O_CREAT and O_EXCL succeeds only if the path did not exist, fails with EEXIST and no effect if it did, and of any number of processes that race to create the same name exactly one succeeds.", "quantifier": "all histories with any number of competing processes", "why_tests_cant": "requires all orders of all competitors", "anchors": ["src/safeposix/syscalls/fs_calls.rs::open_syscall"]}
{"id": "C08", "title": "unlink keeps open files alive and reclaims at last close", "statement": "After unlink the name is gone and all other names are untouched; descriptors that were open on the file keep reading and writing the same bytes; the object and its storage disappear exactly when no name and no descriptor remains, and never earlier.", "quantifier": "all histories of open, dup, fork, close, unlink in any order", "why_tests_cant": "life-time accounting over unbounded histories", "anchors": ["src/safeposix/syscalls/fs_calls.rs::unlink_syscall", "src/safeposix/syscalls/fs_calls.rs::_close_helper_inner"]}
{"id": "C09", "title": "Hard links are aliases", "statement": "After a successful link(old, new) both names resolve to the same object, every other name is unchanged, and removing either name leaves the other one resolving to the same object with the same contents.", "quantifier": "all states, all pairs of paths", "why_tests_cant": "all pairs of names in all trees", "anchors": ["src/safeposix/syscalls/fs_calls.rs::link_syscall", "src/safeposix/syscalls/fs_calls.rs::unlink_syscall"]}
{"id": "C10", "title": "rename moves one name", "statement": "After a successful rename(old, new) the new name resolves to the object the old name referred to, the old name no longer resolves (unless the two are the same path, in which case nothing changes), every other name is unchanged, and an object displaced by the rename loses one link.", "quantifier": "all states, all pairs of paths including equal ones and existing targets", "why_tests_cant": "all pairs of names in all trees", "anchors": ["src/safeposix/syscalls/fs_calls.rs::rename_syscall"]}
{"id": "C11", "title": "Failed file-system calls have no effect", "statement": "A file-system call that returns an error leaves the directory tree, file contents, all descriptors and working directories exactly as they were.", "quantifier": "all states, all calls, all arguments, all error returns", "why_tests_cant": "every error path of every call in every state", "anchors": ["src/safeposix/syscalls/fs_calls.rs"]}
{"id": "C12", "title": "Object numbers are never reused", "statement": "Every newly created object gets a number that has never been in use before, within a run and also after crash recovery, so a stale number can never alias a new file.", "quantifier": "all histories including crashes and recoveries", "why_tests_cant": "unbounded histories", "anchors": ["src/safeposix/filesystem.rs::load_fs", "src/safeposix/syscalls/fs_calls.rs::open_syscall", "src/safeposix/syscalls/fs_calls.rs::mkdir_syscall"]}
{"id": "C13", "title": "The directory structure stays a tree", "statement": "After any history every directory has at most one name, its '..' entry is the directory containing that name, and following '..' from any named directory reaches the root; hence no cycles.", "quantifier": "all histories", "why_tests_cant": "structural invariant over unbounded histories", "anchors": ["src/safeposix/syscalls/fs_calls.rs::mkdir_syscall", "src/safeposix/syscalls/fs_calls.rs::rename_syscall", "src/safeposix/syscalls/fs_calls.rs::rmdir_syscall", "src/safeposix/filesystem.rs::pathnamefrominodenum"]}
{"id": "C14", "title": "Lowest free descriptor", "statement": "Every call that allocates a descriptor returns the smallest number (not below the requested minimum) that is not open in the calling process, fails with ENFILE exactly when none below 1024 is free, and changes no other descriptor.", "quantifier": "all descriptor tables", "why_tests_cant": "2^1024 possible occupancy patterns", "anchors": ["src/safeposix/cage.rs::get_next_fd", "src/safeposix/syscalls/fs_calls.rs::dup_syscall", "src/safeposix/syscalls/fs_calls.rs::fcntl_syscall"]}
{"id": "C15", "title": "Process isolation of descriptors and working directory", "statement": "A system call made by one process never changes the descriptor table or working directory of another process.", "quantifier": "all states, all calls, all pairs of processes", "why_tests_cant": "all states and calls at once", "anchors": ["src/safeposix/cage.rs", "src/safeposix/syscalls/sys_calls.rs::fork_syscall", "src/safeposix/syscalls/sys_calls.rs::exec_syscall", "src/safeposix/syscalls/sys_calls.rs::exit_syscall"]}
{"id": "C16", "title": "Open-reference accounting", "statement": "After any history of open, dup, dup2, fork, exec, close and exit, the open count of every regular file equals the number of descriptors open on it in all processes together; so closing never underflows and an open file's storage is never reclaimed.", "quantifier": "all histories with any number of processes", "why_tests_cant": "an accounting invariant over unbounded histories", "anchors": ["src/safeposix/syscalls/fs_calls.rs::_close_helper_inner", "src/safeposix/syscalls/fs_calls.rs::_dup2_helper", "src/safeposix/syscalls/sys_calls.rs::fork_syscall", "src/safeposix/syscalls/sys_calls.rs::exec_syscall", "src/safeposix/syscalls/sys_calls.rs::exit_syscall"]}
{"id": "C17", "title": "dup and dup2", "statement": "A successful dup, dup2 or F_DUPFD makes the new number refer to the same open file as the old one with close-on-exec cleared, leaves every other number alone, and afterwards both numbers share one file offset.", "quantifier": "all states, all descriptor numbers", "why_tests_cant": "all tables and all later interleavings of reads through both numbers", "anchors": ["src/safeposix/syscalls/fs_calls.rs::dup_syscall", "src/safeposix/syscalls/fs_calls.rs::dup2_syscall", "src/safeposix/syscalls/fs_calls.rs::_dup2_helper"]}
{"id": "C18", "title": "close", "statement": "close of an open descriptor succeeds, makes exactly that number unused, leaves all other numbers in all processes alone, and a second close of the same number fails with EBADF.", "quantifier": "all states, all descriptor numbers", "why_tests_cant": "all tables", "anchors": ["src/safeposix/syscalls/fs_calls.rs::close_syscall", "src/safeposix/syscalls/fs_calls.rs::_close_helper"]}
{"id": "C19", "title": "fork, exec and exit on descriptors", "statement": "After fork the child has exactly the parent's open descriptors, referring to the same files and pipes; exec keeps exactly those without close-on-exec; exit releases every descriptor of the process and nothing else.", "quantifier": "all states, all processes", "why_tests_cant": "all descriptor tables", "anchors": ["src/safeposix/syscalls/sys_calls.rs::fork_syscall", "src/safeposix/syscalls/sys_calls.rs::exec_syscall", "src/safeposix/syscalls/sys_calls.rs::exit_syscall"]}
{"id": "C20", "title": "Descriptor flags", "statement": "F_SETFD followed by F_GETFD reports the close-on-exec bit that was set, F_SETFL can never change the access mode, F_GETFL never reports creation flags, and no fcntl command affects any other descriptor.", "quantifier": "all flag words, all descriptors", "why_tests_cant": "2^32 flag words in all states", "anchors": ["src/safeposix/syscalls/fs_calls.rs::fcntl_syscall"]}
{"id": "C21", "title": "Bad descriptor numbers are rejected", "statement": "Every call given a descriptor number that is negative, too large or not open returns EBADF and does not abort the runtime.", "quantifier": "all integers, all descriptor-taking calls, all states", "why_tests_cant": "all integers in all states", "anchors": ["src/safeposix/cage.rs::get_filedescriptor", "src/safeposix/syscalls/fs_calls.rs::fstat_syscall", "src/safeposix/syscalls/fs_calls.rs::read_syscall", "src/safeposix/syscalls/fs_calls.rs::close_syscall"]}
{"id": "C22", "title": "Positioned I/O refines a byte array", "statement": "For any sequence of writes, positioned writes and truncations of a file the bytes returned by later reads are those of a plain byte array to which the same operations were applied, gaps being read as zeros, and the reported size is that array's length.", "quantifier": "all operation sequences, offsets and data", "why_tests_cant": "infinitely many sequences and offsets", "anchors": ["src/safeposix/syscalls/fs_calls.rs::write_syscall", "src/safeposix/syscalls/fs_calls.rs::pwrite_syscall", "src/safeposix/syscalls/fs_calls.rs::read_syscall", "src/safeposix/syscalls/fs_calls.rs::pread_syscall", "src/safeposix/syscalls/fs_calls.rs::ftruncate_syscall", "src/interface/file.rs"]}
{"id": "C23", "title": "Sequential read and end of file", "statement": "A read of n bytes at offset p of a file of size s returns exactly min(n, max(0, s-p)) bytes and advances the offset by that amount; at or beyond the end it returns 0.", "quantifier": "all sizes, offsets and counts", "why_tests_cant": "all triples of integers", "anchors": ["src/safeposix/syscalls/fs_calls.rs::read_syscall", "src/safeposix/syscalls/fs_calls.rs::pread_syscall", "src/interface/file.rs::readat"]}
{"id": "C24", "title": "lseek", "statement": "A successful lseek on a regular file returns the new offset, which is the requested displacement from the start, the current offset or the end; negative results fail with EINVAL and leave the offset alone; file contents and size never change.", "quantifier": "all offsets, displacements and whence values", "why_tests_cant": "all 64-bit integers", "anchors": ["src/safeposix/syscalls/fs_calls.rs::lseek_syscall"]}
{"id": "C25", "title": "Access mode of a descriptor is enforced", "statement": "Through a descriptor opened read-only no call can change the file's bytes or size, and through one opened write-only no call can return its bytes.", "quantifier": "all states, all calls through the descriptor", "why_tests_cant": "all calls in all states", "anchors": ["src/safeposix/syscalls/fs_calls.rs::write_syscall", "src/safeposix/syscalls/fs_calls.rs::pwrite_syscall", "src/safeposix/syscalls/fs_calls.rs::ftruncate_syscall", "src/safeposix/syscalls/fs_calls.rs::read_syscall", "src/safeposix/syscalls/fs_calls.rs::pread_syscall", "src/safeposix/syscalls/fs_calls.rs::open_syscall"]}
{"id": "C26", "title": "O_APPEND", "statement": "Every write through a descriptor opened with O_APPEND goes to the current end of the file, whatever other descriptors or seeks did in between, so concurrent appenders never overwrite each other.", "quantifier": "all interleavings of appenders", "why_tests_cant": "all interleavings", "anchors": ["src/safeposix/syscalls/fs_calls.rs::_file_initializer", "src/safeposix/syscalls/fs_calls.rs::write_syscall"]}
{"id": "C27", "title": "chmod and access", "statement": "chmod/fchmod change exactly the nine permission bits of exactly one object, reject words with other bits, and access afterwards grants exactly what the owner bits say.", "quantifier": "all mode words, all objects", "why_tests_cant": "all mode words in all states", "anchors": ["src/safeposix/syscalls/fs_calls.rs::_chmod_helper", "src/safeposix/syscalls/fs_calls.rs::access_syscall"]}
{"id": "C28", "title": "Directory listing is complete and duplicate-free", "statement": "Repeated getdents calls on an unmodified directory with buffers that hold at least one entry return every name exactly once and then 0.", "quantifier": "all directories, all buffer-size sequences", "why_tests_cant": "all directories and all buffer sizes", "anchors": ["src/safeposix/syscalls/fs_calls.rs::getdents_syscall"]}
{"id": "C29", "title": "Pipes deliver bytes in order without loss or duplication", "statement": "For any number of concurrent readers and writers and any schedule, the bytes read so far followed by the bytes still in the pipe equal the bytes accepted so far, in order.", "quantifier": "all schedules, all write and read sizes, blocking and non-blocking", "why_tests_cant": "all interleavings", "anchors": ["src/interface/pipe.rs::write_to_pipe", "src/interface/pipe.rs::read_from_pipe"]}
{"id": "C30", "title": "Pipe capacity is bounded", "statement": "A pipe never holds more bytes than its capacity, and a write never reports more bytes than it was given or fewer than it inserted.", "quantifier": "all schedules", "why_tests_cant": "all interleavings", "anchors": ["src/interface/pipe.rs::write_to_pipe"]}
{"id": "C31", "title": "Small pipe writes are atomic", "statement": "In every schedule a write of at most PIPE_BUF (4096) bytes appears contiguously in the pipe's stream, and a non-blocking one is all-or-nothing.", "quantifier": "all schedules with any number of writers", "why_tests_cant": "all interleavings", "anchors": ["src/interface/pipe.rs::write_to_pipe"]}
{"id": "C32", "title": "Pipe end-of-file", "statement": "A read returns 0 for a non-zero request only when no writer exists and no unread byte remains; conversely once all writers are gone every remaining byte is still delivered and then 0 is returned.", "quantifier": "all schedules of writers, readers and closes", "why_tests_cant": "a race visible only in particular interleavings", "anchors": ["src/interface/pipe.rs::read_from_pipe"]}
{"id": "C33", "title": "Broken pipe", "statement": "A write to a pipe with no open read end fails with EPIPE and inserts nothing; as long as a read end is open no write fails with EPIPE.", "quantifier": "all schedules and states", "why_tests_cant": "all interleavings", "anchors": ["src/interface/pipe.rs::write_to_pipe", "src/safeposix/syscalls/fs_calls.rs::write_syscall"]}
{"id": "C34", "title": "Vectored pipe writes form one stream segment", "statement": "The bytes that writev reports as written are exactly a prefix of the concatenated buffers and appear in the pipe in order without holes.", "quantifier": "all schedules, all iovec lists", "why_tests_cant": "needs a reader scheduled between two buffers", "anchors": ["src/interface/pipe.rs::write_vectored_to_pipe", "src/safeposix/syscalls/fs_calls.rs::writev_syscall"]}
{"id": "C35", "title": "Pipe end counts follow descriptors", "statement": "After any history of pipe, dup, dup2, fork, exec, close and exit the number of read (write) ends a pipe counts equals the number of open descriptors on its read (write) end in all processes.", "quantifier": "all histories with any number of processes", "why_tests_cant": "accounting over unbounded histories", "anchors": ["src/interface/pipe.rs::incr_ref", "src/interface/pipe.rs::decr_ref", "src/safeposix/syscalls/fs_calls.rs::_dup2_helper", "src/safeposix/syscalls/sys_calls.rs::fork_syscall"]}
{"id": "C36", "title": "pipe creation is all-or-nothing", "statement": "pipe/pipe2 either returns two fresh descriptors, a read end and a write end of one new empty pipe, or fails leaving the descriptor table as it was.", "quantifier": "all descriptor tables including nearly full ones", "why_tests_cant": "2^1024 occupancy patterns", "anchors": ["src/safeposix/syscalls/fs_calls.rs::pipe2_syscall"]}
{"id": "C37", "title": "Log appends survive crashes as whole entries", "statement": "If the process dies at any point while appending to the metadata log, the log read back on the next start consists exactly of all previously appended entries, plus possibly the entry being appended, and never of a torn entry.", "quantifier": "all crash points, all entry sequences, all extensions of the log file", "why_tests_cant": "a crash can occur between any two memory writes", "anchors": ["src/interface/file.rs::write_to_map", "src/interface/file.rs::extend_map", "src/safeposix/filesystem.rs::load_fs"]}
{"id": "C38", "title": "Recovery reproduces the file system", "statement": "If the process dies between two system calls, the next start sees exactly the directory tree, kinds, sizes, modes and link counts as they were, minus objects that had no name left.", "quantifier": "all histories, crash after any call", "why_tests_cant": "all histories and crash points", "anchors": ["src/safeposix/filesystem.rs::load_fs", "src/safeposix/filesystem.rs::log_metadata", "src/safeposix/filesystem.rs::fsck"]}
{"id": "C39", "title": "A crash inside a call leaves a consistent tree", "statement": "If the process dies in the middle of a system call, after the next start every directory entry refers to an existing object.", "quantifier": "all histories, all crash points inside the last call", "why_tests_cant": "requires killing the process between two log writes", "anchors": ["src/safeposix/filesystem.rs::load_fs", "src/safeposix/filesystem.rs::fsck", "src/safeposix/syscalls/fs_calls.rs::open_syscall", "src/safeposix/syscalls/fs_calls.rs::mkdir_syscall", "src/safeposix/syscalls/fs_calls.rs::link_syscall", "src/safeposix/syscalls/fs_calls.rs::rmdir_syscall"]}
{"id": "C40", "title": "Recovery is idempotent", "statement": "Crashing again right after recovery and recovering a second time gives the same file system as recovering once.", "quantifier": "all metadata files and logs", "why_tests_cant": "requires two crashes at particular points", "anchors": ["src/safeposix/filesystem.rs::load_fs", "src/safeposix/filesystem.rs::persist_metadata", "src/safeposix/filesystem.rs::create_log"]}
{"id": "C41", "title": "Clean shutdown preserves the file system", "statement": "After a clean shutdown and restart every regular file, directory and device that had a name outside /tmp is still there with the same contents and attributes, and a crash during shutdown loses nothing.", "quantifier": "all histories, all crash points during shutdown", "why_tests_cant": "all histories and crash points", "anchors": ["src/safeposix/dispatcher.rs::lindrustfinalize", "src/safeposix/filesystem.rs::persist_metadata", "src/safeposix/filesystem.rs::remove_domain_sock", "src/safeposix/syscalls/fs_calls.rs::rename_syscall"]}
{"id": "C42", "title": "Shared-memory attach counts", "statement": "After any history of shmget, shmat, shmdt, fork, exec, exit and IPC_RMID the attach count of each segment equals the number of current attachments of all processes together.", "quantifier": "all histories with any number of processes", "why_tests_cant": "accounting over unbounded histories", "anchors": ["src/safeposix/shm.rs::map_shm", "src/safeposix/shm.rs::unmap_shm", "src/safeposix/syscalls/fs_calls.rs::shmat_syscall", "src/safeposix/syscalls/fs_calls.rs::shmdt_syscall", "src/safeposix/syscalls/sys_calls.rs::unmap_shm_mappings", "src/safeposix/syscalls/sys_calls.rs::fork_syscall"]}
{"id": "C43", "title": "Shared-memory segment life time", "statement": "A segment is destroyed exactly when it has been marked for removal and its last attachment goes away; an unmarked or attached segment always stays usable; identifiers are never reused.", "quantifier": "all histories", "why_tests_cant": "unbounded histories", "anchors": ["src/safeposix/syscalls/fs_calls.rs::shmctl_syscall", "src/safeposix/syscalls/fs_calls.rs::shmdt_syscall", "src/safeposix/syscalls/sys_calls.rs::unmap_shm_mappings"]}
{"id": "C44", "title": "Shared-memory keys", "statement": "shmget with the same key returns the same identifier until the segment is removed and different keys never yield the same identifier; IPC_CREAT|IPC_EXCL succeeds at most once per key while it exists; the segment has the requested size, within the allowed limits.", "quantifier": "all histories, all keys and sizes", "why_tests_cant": "all histories; all sizes including those beyond 32 bits", "anchors": ["src/safeposix/syscalls/fs_calls.rs::shmget_syscall"]}
{"id": "C45", "title": "Semaphore counting", "statement": "A semaphore's value is always between 0 and the maximum and equals its initial value plus posts minus completed waits; post fails with EOVERFLOW exactly at the maximum, try-wait with EAGAIN exactly at zero; with initial value n at most n threads are between wait and post at any time, in every schedule.", "quantifier": "all schedules of any number of threads", "why_tests_cant": "all interleavings", "anchors": ["src/interface/misc.rs::RustSemaphore", "src/safeposix/syscalls/fs_calls.rs::sem_wait_syscall", "src/safeposix/syscalls/fs_calls.rs::sem_post_syscall", "src/safeposix/syscalls/fs_calls.rs::sem_trywait_syscall"]}
{"id": "C46", "title": "Semaphore handles", "statement": "sem_init on a free address creates a semaphore with the given value, a second sem_init on it fails, operations on an address without a semaphore fail with EINVAL, destroy makes it unusable, and no operation affects any other semaphore.", "quantifier": "all handles and histories", "why_tests_cant": "unbounded histories", "anchors": ["src/safeposix/syscalls/fs_calls.rs::sem_init_syscall", "src/safeposix/syscalls/fs_calls.rs::sem_destroy_syscall", "src/safeposix/syscalls/fs_calls.rs::sem_getvalue_syscall"]}
{"id": "C47", "title": "Advisory locks exclude", "statement": "At any time a file locked through flock has either one exclusive holder or any number of shared holders, never both, also when the holders opened the file separately; unlocking lets waiters proceed.", "quantifier": "all schedules of any number of lockers", "why_tests_cant": "all interleavings", "anchors": ["src/interface/misc.rs::AdvisoryLock", "src/safeposix/syscalls/fs_calls.rs::flock_syscall"]}
{"id": "C48", "title": "Mutex and condition-variable handles", "statement": "A created mutex or condition variable gets the lowest free handle, distinct from all live ones; operations on handles that are not live fail with EBADF; destroying one affects no other; the tables of two processes are independent.", "quantifier": "all histories", "why_tests_cant": "unbounded histories", "anchors": ["src/safeposix/syscalls/fs_calls.rs::mutex_create_syscall", "src/safeposix/syscalls/fs_calls.rs::mutex_destroy_syscall", "src/safeposix/syscalls/fs_calls.rs::cond_create_syscall"]}
{"id": "C49", "title": "Signal set algebra", "statement": "Adding, deleting and testing signal numbers in a signal set behaves like a finite set of the numbers 1..64: membership after add/delete is exact and other members are unaffected.", "quantifier": "all sets and all signal numbers", "why_tests_cant": "2^64 sets", "anchors": ["src/interface/misc.rs::lind_sigaddset", "src/interface/misc.rs::lind_sigdelset", "src/interface/misc.rs::lind_sigismember"]}
{"id": "C50", "title": "Signal mask changes", "statement": "sigprocmask returns the previous mask and then blocks exactly the union, difference or replacement requested; unknown requests fail with EINVAL leaving the mask unchanged.", "quantifier": "all masks and sets", "why_tests_cant": "2^128 pairs", "anchors": ["src/safeposix/syscalls/sys_calls.rs::sigprocmask_syscall"]}
{"id": "C51", "title": "Blocked signals stay pending", "statement": "A signal that arrives while blocked is delivered after it is unblocked; it is never lost, and no signal is delivered while blocked.", "quantifier": "all histories of arrivals and mask changes", "why_tests_cant": "unbounded histories", "anchors": ["src/safeposix/dispatcher.rs::lindgetsighandler", "src/safeposix/syscalls/sys_calls.rs::sigprocmask_syscall", "src/safeposix/cage.rs::send_pending_signals"]}
{"id": "C52", "title": "Signal actions", "statement": "sigaction reports the action installed by the last successful sigaction for that signal (or the default), SIGKILL and SIGSTOP can never be given an action, and other signals' actions are unaffected; a child inherits them at fork.", "quantifier": "all histories", "why_tests_cant": "unbounded histories", "anchors": ["src/safeposix/syscalls/sys_calls.rs::sigaction_syscall", "src/safeposix/syscalls/sys_calls.rs::fork_syscall", "src/safeposix/syscalls/sys_calls.rs::exec_syscall"]}
{"id": "C53", "title": "Interval timers", "statement": "The value reported for an interval timer is what was last set (microsecond exact) less elapsed time, and a timer set to zero is reported as disarmed.", "quantifier": "all timer values and histories", "why_tests_cant": "all 64-bit values", "anchors": ["src/safeposix/syscalls/sys_calls.rs::setitimer_syscall", "src/interface/timer.rs"]}
{"id": "C54", "title": "Process identity", "statement": "Every process reports its own id and, as parent, the process that forked it (kept over exec). The user and group id calls answer -1 the first time they are called after program start and the default id 1000 on every later call; whether the first call has happened is inherited over fork and reset by exec.", "quantifier": "all histories", "why_tests_cant": "unbounded histories", "anchors": ["src/safeposix/syscalls/sys_calls.rs::getuid_syscall", "src/safeposix/syscalls/sys_calls.rs::getppid_syscall", "src/safeposix/syscalls/sys_calls.rs::fork_syscall", "src/safeposix/syscalls/sys_calls.rs::exec_syscall"]}
{"id": "C55", "title": "Ephemeral ports are in range and unused", "statement": "An automatically assigned port lies in the ephemeral range and is not in use on any address for that protocol; assignment fails only when every ephemeral port is in use.", "quantifier": "all sets of used ports", "why_tests_cant": "2^28232 sets", "anchors": ["src/safeposix/net.rs::_get_available_tcp_port", "src/safeposix/net.rs::_get_available_udp_port"]}
{"id": "C56", "title": "Port reservations are exclusive and released", "statement": "Two live reservations of the same address, port and protocol are possible only if both asked for port reuse; every successful reservation is recorded, and releasing it makes the port available again without affecting other reservations.", "quantifier": "all histories of reservations and releases", "why_tests_cant": "unbounded histories", "anchors": ["src/safeposix/net.rs::_reserve_localport", "src/safeposix/net.rs::_release_localport"]}
{"id": "C57", "title": "Peeking does not consume", "statement": "recv with MSG_PEEK on a local stream socket returns the bytes the next recv will return and does not remove them: whatever the mix of peeks and reads, the bytes consumed are the bytes sent, in order.", "quantifier": "all sequences of sends, peeks and receives of all sizes", "why_tests_cant": "infinitely many sequences", "anchors": ["src/safeposix/syscalls/net_calls.rs::recv_common_inner_tcp"]}
{"id": "C58", "title": "Shutdown direction semantics", "statement": "After shutdown of the sending (receiving) direction of a connected local socket, send (recv) on it fails and the other direction still works; after both it is not connected; the peer of a socket whose sending side was shut down reads end of file.", "quantifier": "all socket states and all sequences of shutdowns", "why_tests_cant": "all sequences", "anchors": ["src/safeposix/syscalls/net_calls.rs::netshutdown_syscall", "src/safeposix/syscalls/net_calls.rs::_cleanup_socket_inner_helper", "src/safeposix/syscalls/net_calls.rs::send_syscall", "src/safeposix/syscalls/net_calls.rs::recv_common_inner_tcp"]}
{"id": "C59", "title": "Local connections are all served", "statement": "Every local stream connection request to a listening address that has not been accepted yet is eventually matched with exactly one accept; two clients connecting at the same time are both served.", "quantifier": "all schedules of clients and servers", "why_tests_cant": "all interleavings", "anchors": ["src/safeposix/syscalls/net_calls.rs::connect_tcp_unix", "src/safeposix/syscalls/net_calls.rs::accept_unix"]}
{"id": "C60", "title": "Readiness reports are sound and counted", "statement": "select, poll and epoll report a pipe or local socket descriptor ready for reading exactly when a read would not block; the returned count equals the number of reported descriptors; poll never reports an event that was not requested or that did not occur.", "quantifier": "all descriptor sets and states", "why_tests_cant": "all sets and states", "anchors": ["src/safeposix/syscalls/net_calls.rs::select_syscall", "src/safeposix/syscalls/net_calls.rs::select_readfds", "src/safeposix/syscalls/net_calls.rs::select_writefds", "src/safeposix/syscalls/net_calls.rs::poll_syscall", "src/safeposix/syscalls/net_calls.rs::epoll_wait_syscall"]}
{"id": "C61", "title": "Epoll interest list", "statement": "The interest list of an epoll instance is a map from descriptors to events: add fails if present, modify and delete fail if absent, each affects exactly one descriptor, and a closed descriptor is no longer watched.", "quantifier": "all histories of epoll_ctl, close and open", "why_tests_cant": "unbounded histories", "anchors": ["src/safeposix/syscalls/net_calls.rs::epoll_ctl_syscall", "src/safeposix/syscalls/net_calls.rs::epoll_wait_syscall"]}
{"id": "C62", "title": "Socket options", "statement": "A boolean socket option read back is the one last set, setting one option never changes another, and a new socket has all of them off.", "quantifier": "all option histories", "why_tests_cant": "unbounded histories and all option numbers", "anchors": ["src/safeposix/syscalls/net_calls.rs::setsockopt_syscall", "src/safeposix/syscalls/net_calls.rs::getsockopt_syscall", "src/safeposix/syscalls/net_calls.rs::mksockhandle"]}
{"id": "C63", "title": "Descriptor-returning network calls report failure", "statement": "accept and socketpair return a non-negative value only if they created the new descriptors they report.", "quantifier": "all descriptor tables including full ones", "why_tests_cant": "2^1024 occupancy patterns", "anchors": ["src/safeposix/syscalls/net_calls.rs::accept_syscall", "src/safeposix/syscalls/net_calls.rs::socketpair_syscall"]}
{"id": "C64", "title": "Device numbers round-trip", "statement": "Packing a major and minor number and unpacking them gives the same pair for all 32-bit numbers, and packing is injective.", "quantifier": "all pairs of 32-bit numbers", "why_tests_cant": "2^64 pairs", "anchors": ["src/safeposix/syscalls/fs_constants.rs::makedev", "src/safeposix/syscalls/fs_constants.rs::major", "src/safeposix/syscalls/fs_constants.rs::minor"]}
{"id": "C65", "title": "Error codes round-trip", "statement": "Every error code a call can return converts back to exactly the error it was made from, distinct errors have distinct codes, every error return is negative, and codes outside the table are rejected.", "quantifier": "all integers", "why_tests_cant": "all 32-bit integers", "anchors": ["src/interface/errnos.rs::Errno", "src/interface/errnos.rs::syscall_error"]}
{"id": "C66", "title": "Whole-second alarm timers fire on time", "statement": "A real-time interval timer armed for a whole number of seconds sends no alarm before that many seconds have passed, and sends exactly one SIGALRM to the main thread of the process at the first clock tick afterwards.", "quantifier": "all histories before arming, all whole-second values, all schedules of ticks and clock advances", "why_tests_cant": "quantifies over all clock schedules; a test observes one", "anchors": ["src/interface/timer.rs::IntervalTimer::tick", "src/interface/timer.rs::_set_itimer", "src/safeposix/syscalls/sys_calls.rs::setitimer_syscall"]}
{"id": "C67", "title": "Status flags and close-on-exec are separate", "statement": "Changing the file status flags of a descriptor with F_SETFL leaves its close-on-exec flag as it was, so a descriptor marked close-on-exec never survives exec because its owner made it non-blocking.", "quantifier": "all flag words, all descriptors, all histories", "why_tests_cant": "all flag words in all states; the effect shows only after a later exec", "anchors": ["src/safeposix/syscalls/fs_calls.rs::fcntl_syscall", "src/safeposix/syscalls/sys_calls.rs::exec_syscall"]}
{"id": "C68", "title": "A non-blocking pipe write that fits is accepted", "statement": "While a read end is open, a non-blocking write of at most PIPE_BUF bytes for which the pipe has room is accepted whole; it is refused with EAGAIN only when it does not fit.", "quantifier": "all states of the pipe, all write sizes up to 4096", "why_tests_cant": "depends on the exact fill level of the buffer at the moment of the call", "anchors": ["src/interface/pipe.rs::write_to_pipe"]}
{"id": "C69", "title": "flock converts a lock already held", "statement": "flock on a descriptor that already holds a lock replaces it by the requested one; a single thread that holds a shared lock and asks for an exclusive one on the same descriptor, with nobody else holding any, gets it and does not wait for itself.", "quantifier": "all histories of flock calls by one thread", "why_tests_cant": "the failing case is a wait without end, which a test cannot distinguish from slowness, and the claim ranges over all histories", "anchors": ["src/safeposix/syscalls/fs_calls.rs::flock_syscall", "src/interface/misc.rs::AdvisoryLock::lock_ex"]}
{"id": "C70", "title": "flock with LOCK_NB fails only when a conflicting lock is held", "statement": "flock with LOCK_NB never waits; it fails with EAGAIN only when another holder has a conflicting lock, and a blocking flock never fails.", "quantifier": "all schedules of any number of threads", "why_tests_cant": "needs every interleaving of the internal mutex with the calls of the other threads", "anchors": ["src/safeposix/syscalls/fs_calls.rs::flock_syscall", "src/interface/misc.rs::AdvisoryLock::try_lock_sh"]}
{"id": "C71", "title": "Failures of mutex and condition-variable calls are negative error numbers", "statement": "A mutex or condition-variable call that did not do what was asked (trylock on a locked mutex, timedwait that timed out) returns a negative error number like every other call.", "quantifier": "all states and all calls", "why_tests_cant": "all states; the convention is shared by every call and callers test for a negative result", "anchors": ["src/safeposix/syscalls/fs_calls.rs::mutex_trylock_syscall", "src/safeposix/syscalls/fs_calls.rs::cond_timedwait_syscall", "src/interface/misc.rs::RawMutex::trylock"]}
{"id": "C72", "title": "Shared-memory calls of several threads complete", "statement": "Shared-memory calls made by any number of threads of any number of processes never wait for each other in a circle: while some thread is inside shmat, shmdt or shmctl, some thread can go on, so every call returns.", "quantifier": "all numbers of threads and processes, all interleavings", "why_tests_cant": "depends on the interleaving; a stress test may never hit the window", "anchors": ["src/safeposix/syscalls/fs_calls.rs::shmat_syscall", "src/safeposix/syscalls/fs_calls.rs::shmdt_syscall", "src/safeposix/syscalls/fs_calls.rs::shmctl_syscall"]}
{"id": "C73", "title": "A crash during start-up does not prevent the next start", "statement": "Whatever point of its own start-up the runtime dies at, the next start completes.", "quantifier": "all crash points during start-up", "why_tests_cant": "requires dying between the creation of the log file and the call that sets its size", "anchors": ["src/interface/file.rs::new", "src/safeposix/filesystem.rs::load_fs", "src/safeposix/filesystem.rs::create_log"]}
{"id": "C74", "title": "Every metadata change can be logged", "statement": "Appending an entry to the metadata log succeeds whatever the size of the entry and of the log, so that no directory is too large to be changed.", "quantifier": "all logs, all entries", "why_tests_cant": "needs directories whose encoding exceeds a megabyte; all sizes", "anchors": ["src/interface/file.rs::write_to_map", "src/interface/file.rs::extend_map", "src/safeposix/filesystem.rs::log_metadata"]}
{"id": "C75", "title": "A call interrupted by a crash is done or not done", "statement": "If the process dies in the middle of a system call, the next start shows the directory tree and the attributes either as they were before the call or as they are after it.", "quantifier": "all histories, all calls, all crash points inside the last call", "why_tests_cant": "requires killing the process between two host operations of one call, for all calls", "anchors": ["src/safeposix/filesystem.rs::log_metadata", "src/safeposix/syscalls/fs_calls.rs::unlink_syscall", "src/safeposix/syscalls/fs_calls.rs::write_syscall", "src/safeposix/syscalls/fs_calls.rs::rename_syscall"]}
{"id": "C76", "title": "Integer arguments arrive as they were passed", "statement": "A 32-bit integer argument passed in a 64-bit argument word is the integer the call acts on, whether the caller zero-extends or sign-extends it; 64-bit arguments arrive unchanged; a word that is no 32-bit integer is refused with EINVAL.", "quantifier": "all 32-bit and 64-bit values, all argument words", "why_tests_cant": "all words; tests pass small positive numbers", "anchors": ["src/interface/types.rs::get_int", "src/interface/types.rs::get_uint", "src/interface/types.rs::get_long", "src/interface/types.rs::get_ulong"]}
{"id": "C77", "title": "Timeouts last as long as requested", "statement": "The time a call waits is exactly the time given: seconds and microseconds of a timeval, seconds and nanoseconds of a timespec, milliseconds of poll; no valid timeout aborts, invalid ones are refused, a missing or negative one means waiting for ever.", "quantifier": "all valid timevals, timespecs and millisecond counts", "why_tests_cant": "all values; arithmetic overflow only shows for particular ones", "anchors": ["src/interface/types.rs::duration_fromtimeval", "src/interface/types.rs::duration_fromtimespec", "src/interface/types.rs::get_duration_from_millis"]}
{"id": "C78", "title": "Socket addresses survive the boundary", "statement": "An address handed out by accept, getsockname, getpeername or recvfrom and passed back to another call is the same address; never more than the caller's buffer is written and its true length is reported; an address passed in is determined by the bytes within the length the caller gives.", "quantifier": "all addresses of all families, all buffers, lengths and memory contents", "why_tests_cant": "all addresses and all buffer sizes, and the contents of memory behind the buffer", "anchors": ["src/interface/types.rs::get_sockaddr", "src/interface/types.rs::copy_out_sockaddr", "src/interface/comm.rs::GenSockaddr"]}
{"id": "C79", "title": "Textual IP addresses are read correctly", "statement": "Every textual IPv4 or IPv6 address in the device list is read as that address and everything else is refused without aborting; the device list of the machine is the addresses of the file, in order, followed by the wildcard address.", "quantifier": "all strings, all device files", "why_tests_cant": "all strings", "anchors": ["src/interface/comm.rs::GenIpaddr::from_string", "src/safeposix/net.rs::ips_from_ifaddrs"]}
{"id": "C80", "title": "The getdents buffer can be walked", "statement": "After getdents the buffer contains exactly as many bytes as were returned, never more than its size, and a program that walks it record by record using the record lengths finds exactly the reported entries, names and object numbers, every record starting at a multiple of eight.", "quantifier": "all directories, all buffer sizes, all states", "why_tests_cant": "all directories and names", "anchors": ["src/interface/types.rs::pack_dirents", "src/safeposix/syscalls/fs_calls.rs::getdents_syscall"]}
{"id": "C81", "title": "Strings handed back fit and are terminated", "statement": "getcwd, gethostname and getifaddrs write only within the caller's buffer; on success the buffer holds the whole string and its terminating NUL, and a buffer large enough for both is accepted; on failure nothing is written. Passing the result of getcwd to chdir leaves the working directory as it is.", "quantifier": "all working directories, all buffers and sizes, all states", "why_tests_cant": "all sizes around the length of the string", "anchors": ["src/safeposix/syscalls/fs_calls.rs::getcwd_syscall", "src/safeposix/syscalls/net_calls.rs::gethostname_syscall", "src/safeposix/syscalls/net_calls.rs::getifaddrs_syscall", "src/interface/misc.rs::fill"]}
{"id": "C82", "title": "Descriptor sets are sets", "statement": "A descriptor set is a finite set of the numbers 0 to 1023: adding, removing, testing and the test for emptiness are the set operations; when select asks the host kernel, every descriptor of the program whose host descriptor is ready is reported, and no other.", "quantifier": "all sets, all descriptors, all answers of the kernel", "why_tests_cant": "all sets and all tables of descriptors, including duplicated ones", "anchors": ["src/interface/comm.rs::FdSet", "src/interface/comm.rs::set_from_kernelfds_and_translate", "src/safeposix/net.rs::update_readfds_from_kernel_select"]}
{"id": "C83", "title": "No socket call brings the runtime down", "statement": "Whatever sequence of socket, descriptor and readiness calls the cages make, no call with arguments in range aborts the runtime (which would end every cage): each answers with a result or an error, or waits.", "quantifier": "all histories of calls by all cages", "why_tests_cant": "unbounded histories; the aborting ones combine several unusual but legal calls", "anchors": ["src/safeposix/syscalls/net_calls.rs::connect_tcp_unix", "src/safeposix/syscalls/net_calls.rs::accept_unix", "src/safeposix/syscalls/net_calls.rs::select_readfds", "src/safeposix/syscalls/fs_calls.rs::_close_helper_inner", "src/safeposix/syscalls/fs_calls.rs::_dup2_helper", "src/safeposix/syscalls/sys_calls.rs::fork_syscall"]}
{"id": "C84", "title": "A local connect reaches a listening socket", "statement": "connect to a local address succeeds, or waits to be accepted, only if some open socket is listening at that address; otherwise it fails and changes nothing.", "quantifier": "all histories and addresses", "why_tests_cant": "unbounded histories of bind, listen, close and unlink", "anchors": ["src/safeposix/syscalls/net_calls.rs::connect_tcp_unix", "src/safeposix/syscalls/net_calls.rs::bind_inner_socket_unix", "src/safeposix/syscalls/fs_calls.rs::_close_helper_inner", "src/safeposix/syscalls/fs_calls.rs::unlink_syscall"]}
{"id": "C85", "title": "Descriptor numbers handed out under concurrency", "statement": "However the calls of any number of threads of a process interleave, an allocating call (open, socket, pipe, dup, accept) returns a number that is not open at that moment; the same number is handed out twice only with a successful close of it in between; a call on a descriptor succeeds exactly if its number is open at the moment it returns, and a failed close or dup2 means the number was not open.", "quantifier": "all numbers of threads, table sizes, programs and interleavings", "why_tests_cant": "interleavings of lock acquisitions cannot be enumerated or forced by a test", "anchors": ["src/safeposix/cage.rs::get_next_fd", "src/safeposix/syscalls/fs_calls.rs::open_syscall", "src/safeposix/syscalls/fs_calls.rs::_dup2_helper", "src/safeposix/syscalls/fs_calls.rs::_close_helper"]}
{"id": "C86", "title": "Descriptor calls terminate under concurrency", "statement": "Whatever descriptor calls (open, close, dup2, read and the like) the threads of a process are in, these calls can always be run to their end: no thread waits for ever for a descriptor lock, and none loops.", "quantifier": "all numbers of threads, table sizes, programs and interleavings", "why_tests_cant": "a deadlock needs a particular interleaving", "anchors": ["src/safeposix/syscalls/fs_calls.rs::dup2_syscall", "src/safeposix/syscalls/fs_calls.rs::_dup2_helper", "src/safeposix/syscalls/fs_calls.rs::_close_helper", "src/safeposix/cage.rs::get_next_fd"]}
{"id": "C87", "title": "Reference counts under concurrency", "statement": "Whatever descriptor calls the threads of a process make at the same time, the runtime does not abort, a close of one number by two threads succeeds once, and when no call is in progress every open object has as many references as descriptors refer to it.", "quantifier": "all numbers of threads, table sizes, programs and interleavings", "why_tests_cant": "the lost or extra reference appears only in interleavings of a few instructions and shows much later", "anchors": ["src/safeposix/syscalls/fs_calls.rs::_close_helper_inner", "src/safeposix/syscalls/fs_calls.rs::_close_helper", "src/safeposix/syscalls/fs_calls.rs::_dup2_helper", "src/safeposix/syscalls/fs_calls.rs::open_syscall"]}
{"id": "C88", "title": "Lowest free descriptor under concurrency", "statement": "An allocating call returns the lowest number that was not open, and fails with ENFILE only when every number was open, also while other threads make descriptor calls.", "quantifier": "all numbers of threads, table sizes, programs and interleavings", "why_tests_cant": "depends on who holds which descriptor lock at the moment of the scan", "anchors": ["src/safeposix/cage.rs::get_next_fd", "src/safeposix/syscalls/fs_calls.rs::open_syscall"]}
{"id": "C89", "title": "Kernel sockets are neither leaked nor used after close", "statement": "Every call the library makes to the host kernel is on a kernel socket that is open; a kernel socket belongs to one socket only and is open exactly as long as some descriptor of some process refers to that socket; when the last socket descriptor is gone every kernel socket has been closed. Each call makes only the kernel calls of its own kind, with the caller's bytes, option and direction.", "quantifier": "all histories of socket, bind, connect, listen, accept, send, sendto, writev, recv, shutdown, close, dup, dup2, fork, name, option, fcntl, ioctl and select calls of any number of processes, and all answers of the host kernel", "why_tests_cant": "depends on every way a socket can be created, duplicated, inherited, shut down and closed, and on every failure of the kernel in between", "anchors": ["src/safeposix/syscalls/net_calls.rs::force_innersocket", "src/safeposix/syscalls/net_calls.rs::_cleanup_socket_inner", "src/safeposix/net.rs::drop", "src/safeposix/syscalls/net_calls.rs::accept_inet"]}
{"id": "C90", "title": "Data goes over connections only and a socket is connected once", "statement": "Stream data is passed to the kernel only on a socket that has a connection, with exactly the caller's bytes, and the caller is told what the kernel took. The kernel is asked to connect only a socket that has no connection, to the caller's address; a second connect fails and changes nothing; a connect that failed can be tried again.", "quantifier": "all histories of socket, bind, connect, listen, accept, send, sendto, writev, recv, shutdown, close, dup, dup2, fork, name, option, fcntl, ioctl and select calls of any number of processes, and all answers of the host kernel", "why_tests_cant": "the library keeps its own connection state beside the kernel's; they must agree after any sequence of calls and failures", "anchors": ["src/safeposix/syscalls/net_calls.rs::connect_tcp_inet", "src/safeposix/syscalls/net_calls.rs::send_syscall", "src/safeposix/syscalls/net_calls.rs::_cleanup_socket_inner_helper", "src/safeposix/net.rs::ConnState"]}
{"id": "C91", "title": "The names of a socket are the kernel's", "statement": "getsockname reports, through every descriptor, the address the kernel socket is bound to (whether by bind, by connect or by accept), and no name if the bind was refused; getpeername reports the address connected to or accepted from.", "quantifier": "all histories of socket, bind, connect, listen, accept, send, sendto, writev, recv, shutdown, close, dup, dup2, fork, name, option, fcntl, ioctl and select calls of any number of processes, and all answers of the host kernel", "why_tests_cant": "the names are copies kept by the library and must survive duplication, fork and failed calls", "anchors": ["src/safeposix/syscalls/net_calls.rs::bind_inner_socket", "src/safeposix/syscalls/net_calls.rs::connect_tcp_inet", "src/safeposix/syscalls/net_calls.rs::accept_inet", "src/safeposix/syscalls/net_calls.rs::getsockname_syscall", "src/safeposix/syscalls/net_calls.rs::getpeername_syscall"]}
{"id": "C92", "title": "A port belongs to one socket at a time", "statement": "Two open sockets of one protocol never have the same port on overlapping addresses unless they asked to share it; a bind to a port that no open socket has is passed to the kernel, and one to a port that is taken fails with EADDRINUSE; closing a socket frees its port and no other.", "quantifier": "all histories of socket, bind, connect, listen, accept, send, sendto, writev, recv, shutdown, close, dup, dup2, fork, name, option, fcntl, ioctl and select calls of any number of processes, and all answers of the host kernel", "why_tests_cant": "a port lost or given away shows only much later, in another process", "anchors": ["src/safeposix/syscalls/net_calls.rs::bind_inner_socket_inet", "src/safeposix/net.rs::_reserve_localport", "src/safeposix/net.rs::_release_localport", "src/safeposix/syscalls/net_calls.rs::_implicit_bind", "src/safeposix/syscalls/net_calls.rs::connect_tcp_inet"]}
{"id": "C93", "title": "A datagram goes where it was sent", "statement": "A datagram is handed to the kernel with the caller's bytes and with the destination given to sendto or, for send, the one given to the last successful connect; the caller learns the kernel's answer; connect makes the kernel drop datagrams of other senders; a receive returns one datagram, and a peeked one stays.", "quantifier": "all histories of socket, bind, connect, listen, accept, send, sendto, writev, recv, shutdown, close, dup, dup2, fork, name, option, fcntl, ioctl and select calls of any number of processes, and all answers of the host kernel", "why_tests_cant": "the peer is kept by the library and must agree with the kernel through failed calls, duplication and fork", "anchors": ["src/safeposix/syscalls/net_calls.rs::sendto_syscall", "src/safeposix/syscalls/net_calls.rs::send_syscall", "src/safeposix/syscalls/net_calls.rs::connect_udp", "src/safeposix/syscalls/net_calls.rs::recv_common_inner_udp"]}
{"id": "C94", "title": "O_NONBLOCK decides whether a call may wait", "statement": "With O_NONBLOCK on the descriptor no call on a socket waits; without it no call answers EAGAIN; F_SETFL and FIONBIO change it, F_GETFL reports it, socket and accept set it, and the kernel socket is always in the mode the descriptor reports.", "quantifier": "all histories of socket, bind, connect, listen, accept, send, sendto, writev, recv, shutdown, close, dup, dup2, fork, name, option, fcntl, ioctl and select calls of any number of processes, and all answers of the host kernel", "why_tests_cant": "the mode of the kernel socket is switched back and forth by the library around single calls", "anchors": ["src/safeposix/syscalls/net_calls.rs::recv_common_inner_tcp", "src/safeposix/syscalls/net_calls.rs::accept_inet"]}
{"id": "C95", "title": "A stream is read in order, without loss or repetition", "statement": "The bytes returned by receives on a stream, through all descriptors and processes, are the bytes the kernel delivered, in order, each once; peeking returns the next bytes and takes none away; no call returns more than asked for.", "quantifier": "all histories of socket, bind, connect, listen, accept, send, sendto, writev, recv, shutdown, close, dup, dup2, fork, name, option, fcntl, ioctl and select calls of any number of processes, and all answers of the host kernel", "why_tests_cant": "bytes peeked at are kept by the library, and any mixture of peeks and reads of any sizes must fit together", "anchors": ["src/safeposix/syscalls/net_calls.rs::recv_common_inner", "src/safeposix/syscalls/net_calls.rs::recv_common_inner_tcp"]}
{"id": "C96", "title": "select reports the sockets the kernel reports", "statement": "A descriptor in the set is reported readable exactly if its socket has something to read, and writable exactly if a send would not wait; the call always answers.", "quantifier": "all histories of socket, bind, connect, listen, accept, send, sendto, writev, recv, shutdown, close, dup, dup2, fork, name, option, fcntl, ioctl and select calls of any number of processes, and all answers of the host kernel", "why_tests_cant": "the library translates between its descriptors and the kernel's through tables that must follow every connect, dup, fork and close", "anchors": ["src/safeposix/syscalls/net_calls.rs::select_readfds", "src/safeposix/syscalls/net_calls.rs::select_writefds"]}
{"id": "C97", "title": "No call on an INET socket aborts the process", "statement": "Every call with any arguments, after any history and whatever the kernel answers, returns a result or an error.", "quantifier": "all histories of socket, bind, connect, listen, accept, send, sendto, writev, recv, shutdown, close, dup, dup2, fork, name, option, fcntl, ioctl and select calls of any number of processes, and all answers of the host kernel", "why_tests_cant": "a panic needs a particular combination of earlier calls, and takes all processes down", "anchors": ["src/safeposix/syscalls/net_calls.rs::listen_syscall", "src/safeposix/syscalls/net_calls.rs::send_syscall", "src/safeposix/syscalls/net_calls.rs::sendto_syscall", "src/safeposix/syscalls/net_calls.rs::accept_syscall", "src/safeposix/syscalls/net_calls.rs::netshutdown_syscall", "src/safeposix/syscalls/net_calls.rs::connect_syscall"]}
{"id": "C98", "title": "Calls on the same names at the same time have the effect of some order", "statement": "When several processes make file-system calls on the same names at once, the answers and the file system afterwards are those of the calls made one after the other in some order. In particular two calls never both create or both remove the same thing, a created file is not lost, and the runtime does not abort.", "quantifier": "all file systems, all programs of any number of processes, all interleavings of their steps", "why_tests_cant": "the windows are a few instructions wide and depend on the scheduler", "anchors": ["src/safeposix/filesystem.rs::metawalkandparent", "src/safeposix/syscalls/fs_calls.rs::open_syscall", "src/safeposix/syscalls/fs_calls.rs::mkdir_syscall", "src/safeposix/syscalls/fs_calls.rs::unlink_syscall", "src/safeposix/syscalls/fs_calls.rs::rmdir_syscall", "src/safeposix/syscalls/fs_calls.rs::link_syscall", "src/safeposix/syscalls/fs_calls.rs::rename_syscall"]}
{"id": "C99", "title": "Processes that work on separate names do not disturb each other", "statement": "Processes whose paths are all below names of their own - none above another, in existing directories, no file with names below two of them - get the answers and leave the file system they would have with their calls made one at a time, however their steps interleave.", "quantifier": "all file systems that some history leads to, all choices of separate names, all programs of any number of processes, all interleavings", "why_tests_cant": "a test sees a few of the interleavings; shared parents are changed by several processes at once", "anchors": ["src/safeposix/filesystem.rs::metawalkandparent", "src/safeposix/syscalls/fs_calls.rs::open_syscall", "src/safeposix/syscalls/fs_calls.rs::mkdir_syscall", "src/safeposix/syscalls/fs_calls.rs::remove_from_parent_dir"]}
{"id": "C100", "title": "Overlapping file-system calls come to an end", "statement": "However the steps of overlapping calls on names are ordered, no process waits for ever: as long as something is left to do some process can go on, and the number of steps is bounded by the lengths of the paths.", "quantifier": "all states of the table, all programs of any number of processes, all interleavings", "why_tests_cant": "a deadlock needs a particular interleaving of lock requests", "anchors": ["src/safeposix/filesystem.rs::metawalkandparent", "src/safeposix/filesystem.rs::metawalk", "src/safeposix/syscalls/fs_calls.rs::unlink_syscall", "src/safeposix/syscalls/fs_calls.rs::rmdir_syscall"]}
{"id": "C101", "title": "A crash after calls of several processes loses nothing that returned", "statement": "When calls of several processes that changed names, modes or sizes have all returned and the machine then crashes, the next start finds every object as these calls left it.", "quantifier": "all stored tables, all programs of any number of processes, all interleavings of their changes and log entries", "why_tests_cant": "needs a crash after a particular interleaving of two log entries", "anchors": ["src/safeposix/filesystem.rs::log_metadata", "src/safeposix/filesystem.rs::load_fs", "src/safeposix/syscalls/fs_calls.rs::mkdir_syscall"]}
{"id": "C102", "title": "Copying a host tree puts every file at its path and touches nothing else", "statement": "The tool that copies a file or directory of the host into the file system creates the missing directories on the way, puts every file of the tree at its path with the bytes it has on the host, creates nothing else, and changes no file that is not at one of these paths.", "quantifier": "all host trees, all destinations, all reachable states of the file system, with or without the permission to create directories", "why_tests_cant": "trees, destinations and prior contents are unbounded; that nothing else changes is a statement about every other path", "anchors": ["src/tools/lib_fs_utils.rs::cp_dir_into_lind", "src/tools/lib_fs_utils.rs::cp_into_lind"]}
{"id": "C103", "title": "Updating writes only what differs and leaves other names of a replaced file alone", "statement": "The tool that updates the file system from the host brings every file of the tree to the bytes it has on the host, changes no file that has these bytes already and no file outside the tree, and replaces a file rather than writing into it: other hard links of a replaced file keep their contents.", "quantifier": "all host trees, all destinations, all reachable states of the file system", "why_tests_cant": "trees, destinations and prior contents, in particular hard links, are unbounded", "anchors": ["src/tools/lib_fs_utils.rs::update_dir_into_lind", "src/tools/lib_fs_utils.rs::update_into_lind"]}
{"id": "C104", "title": "Calls that use the working directory come to an end", "statement": "However the threads of any processes overlap while they change the working directory by path or by descriptor, fork, ask for it or follow paths, they never all wait for each other: some thread can always go on, and the run can be carried on until every call has returned and every lock is free.", "quantifier": "all numbers of processes and threads, all sequences of calls, all interleavings, all directory trees, all ways in which the map of objects groups its locks", "why_tests_cant": "a deadlock needs a particular interleaving of lock requests and, for the map, a particular hash of the object numbers", "anchors": ["src/safeposix/syscalls/fs_calls.rs::chdir_syscall", "src/safeposix/syscalls/fs_calls.rs::fchdir_syscall", "src/safeposix/syscalls/sys_calls.rs::fork_syscall", "src/safeposix/filesystem.rs::pathnamefrominodenum"]}
{"id": "C105", "title": "The file system behaves as a map from paths to files", "statement": "Every sequence of calls on files, directories, devices, pipes, descriptors and processes gives exactly the answers of a simple machine whose state is a map from paths to objects (a directory, an array of bytes or a device, with mode and link count), a queue of bytes for each pipe and, for each process, a working directory and a table of descriptors. Reference counts, counts of readers and writers, directory dictionaries, the table of open files, host files and the log cannot be noticed by any such sequence.", "quantifier": "all sequences of calls of any number of processes with any arguments, from any reachable state", "why_tests_cant": "a test fixes one sequence and one state; the claim is that no sequence whatever distinguishes the implementation from the machine", "anchors": ["src/safeposix/syscalls/fs_calls.rs", "src/safeposix/syscalls/sys_calls.rs::fork_syscall", "src/safeposix/syscalls/sys_calls.rs::exec_syscall", "src/safeposix/syscalls/sys_calls.rs::exit_syscall", "src/safeposix/filesystem.rs"]}
{"id": "C106", "title": "No file-system call brings the runtime down", "statement": "No call on files, directories, descriptors or processes aborts the runtime, whatever its arguments and whatever the state; each returns an answer or an error number. (The code does not keep this: the theorems say exactly which calls abort in which states.)", "quantifier": "all calls with all arguments of all processes in all reachable states; all histories", "why_tests_cant": "an abort needs one particular combination of state and argument; only a statement over all of them tells which combinations there are", "anchors": ["src/safeposix/syscalls/fs_calls.rs", "src/safeposix/syscalls/sys_calls.rs::fork_syscall", "src/safeposix/cage.rs::get_filedescriptor", "src/interface/file.rs::readat", "src/interface/file.rs::writeat"]}
{"id": "C107", "title": "A call number and its six words mean what the manual says", "statement": "A call enters the library as a number and six 64-bit words. If the words stand for values of the parameter types (int, unsigned, long, size, pointer, NUL-ended UTF-8 string in memory), the effect and the answer are those of the named call with these values; otherwise the first bad word decides the error number and nothing happens; a number that is no call answers -1; words after the parameters do not matter.", "quantifier": "all call numbers, all words, all memories, all states", "why_tests_cant": "numbers, words and memories have no finite set of representative cases; a wrong converter for one parameter of one of 38 calls shows only for particular words", "anchors": ["src/safeposix/dispatcher.rs::dispatcher", "src/interface/types.rs", "src/interface/misc.rs::charstar_to_ruststr"]}
{"id": "C108", "title": "Calls write only into the caller's buffers", "statement": "A call changes the caller's memory only inside the structure or buffer that its arguments describe, and a call that fails changes no memory; along a whole program a byte that no call concerns keeps its value.", "quantifier": "all calls, all words, all memories, all programs", "why_tests_cant": "a stray write hits an address that a test does not look at", "anchors": ["src/safeposix/dispatcher.rs::dispatcher", "src/safeposix/syscalls/fs_calls.rs", "src/interface/types.rs"]}
{"id": "C109", "title": "Results are delivered completely to the caller's memory", "statement": "After a successful read, pread, stat, fstat, statfs, fstatfs, getdents, getcwd or pipe the caller's buffer holds exactly what the call reports: the bytes, every field of the structure, the records, the path with its NUL, the two descriptors.", "quantifier": "all calls, all words, all memories, all states", "why_tests_cant": "field offsets, widths and leftovers of earlier contents must be right for all values and all previous contents of the buffer", "anchors": ["src/safeposix/syscalls/fs_calls.rs::_istat_helper", "src/safeposix/syscalls/fs_calls.rs::fstatfs_syscall", "src/interface/types.rs::StatData", "src/interface/types.rs::FSData"]}
{"id": "C110", "title": "Calls read only their arguments", "statement": "A call reads no memory but its strings up to the NUL and the buffers it is asked to write out: two memories that agree there give the same effect, answer and output.", "quantifier": "all pairs of memories, all calls, all states", "why_tests_cant": "the claim compares two runs for every pair of memories", "anchors": ["src/safeposix/dispatcher.rs::dispatcher", "src/interface/types.rs", "src/interface/misc.rs::charstar_to_ruststr"]}
{"id": "C111", "title": "Programs at the binary interface see the specified file system", "statement": "Whatever a program does with call numbers, words and memory, the library is in a state that well-formed calls lead to, and its answers and the contents of its buffers are those the path-to-object specification predicts; data written from one address and read to another are the same.", "quantifier": "all programs, all states", "why_tests_cant": "the number of programs, words and memories is unbounded", "anchors": ["src/safeposix/dispatcher.rs::dispatcher", "src/safeposix/syscalls/fs_calls.rs", "src/interface/types.rs"]}
{"id": "C112", "title": "What is written to stdout and stderr is printed", "statement": "All bytes that a program writes to stdout or stderr appear on the host's output, in order, and nothing else does.", "quantifier": "all programs, all byte sequences", "why_tests_cant": "bytes and their division over calls are unbounded; the failing cases are divisions inside a character", "anchors": ["src/safeposix/syscalls/fs_calls.rs::write_syscall", "src/safeposix/syscalls/fs_calls.rs::writev_syscall", "src/interface/misc.rs::log_from_ptr", "src/interface/misc.rs::log_from_slice"]}
{"id": "C113", "title": "Only marked threads of a cancelled process end", "statement": "A thread is ended inside the library only if its process was cancelled and that thread was marked for it, only in its own step at a cancel point; a call that has seen the cancellation never returns to its caller; the death clears the mark and changes nothing else; the runtime as a whole goes on.", "quantifier": "all threads, all interleavings of calls, cancellations, marks and removals", "why_tests_cant": "the order of cancellation, mark and wait is decided by the scheduler, and the test suite switches the cancel points off", "anchors": ["src/safeposix/dispatcher.rs::lindcancelinit", "src/safeposix/dispatcher.rs::lindsetthreadkill", "src/interface/misc.rs::cancelpoint", "src/interface/misc.rs::check_thread"]}
{"id": "C114", "title": "A marked thread that waits in a cancelled process comes to its end", "statement": "Once a process is cancelled and a thread of it is marked, the thread ends within a few steps of its own, whatever blocking call it waits in and whatever the other threads do.", "quantifier": "all threads, all interleavings", "why_tests_cant": "progress of one thread against all schedules of the others; the failing cases are orders of two steps", "anchors": ["src/safeposix/syscalls/fs_calls.rs::read_syscall", "src/safeposix/syscalls/fs_calls.rs::cond_wait_syscall", "src/safeposix/cage.rs::signalcvs", "src/interface/pipe.rs::write_to_pipe"]}
{"id": "C115", "title": "deltree removes the tree and nothing else", "statement": "`deltree NAME` of the file-system tool ends and removes NAME and everything below it; all other names still lead to the same files with the same contents, open descriptors and processes are untouched, and only directories inside the tree get other permissions. `format` (deltree of the root) leaves nothing but the root.", "quantifier": "all reachable file systems, all trees, all ways to write the path, whatever is open", "why_tests_cant": "the loop deletes entries of the directory it is listing; whether it meets all of them depends on the size of the directory and on the order of a hash map", "anchors": ["src/tools/lib_fs_utils.rs::lind_deltree", "src/tools/lib_fs_utils.rs::visit_children", "src/tools/fs_utils.rs"]}
{"id": "C116", "title": "ls and tree show every name once and change nothing", "statement": "`ls DIR` prints every name in DIR exactly once, with a slash if and only if it is a directory; `tree DIR` prints exactly one line for every name at any depth, each below its parent's line and indented by its depth; afterwards the file system and the descriptors are as before.", "quantifier": "all reachable file systems, directories of any size and depth", "why_tests_cant": "listings come in pieces through a fixed buffer and an offset, recursively, with one descriptor open per level", "anchors": ["src/tools/fs_utils.rs::lind_ls", "src/tools/fs_utils.rs::lind_tree", "src/tools/lib_fs_utils.rs::visit_children", "src/safeposix/syscalls/fs_calls.rs::getdents_syscall"]}
{"id": "C117", "title": "A mapping gives no more rights than the descriptor it was made from", "statement": "Storing into mapped memory changes a file only if an earlier mmap placed that byte of that file at that address with MAP_SHARED and PROT_WRITE through a descriptor open for reading and writing, and it changes that byte alone; stores into private and anonymous mappings are seen nowhere else. mmap refuses exactly the documented cases (EINVAL for a zero length or a wrong choice of MAP_SHARED/MAP_PRIVATE, EBADF, EACCES for other objects and for modes that do not fit, EOPNOTSUPP for devices, ENXIO for offsets outside the file) and then changes nothing.", "quantifier": "all histories of calls of all processes, mappings, loads and stores; all addresses, lengths, flags and protections", "why_tests_cant": "which byte of which file a store reaches depends on all mappings ever made, replaced and removed, on descriptors long closed and on files replaced meanwhile", "anchors": ["src/safeposix/syscalls/fs_calls.rs::mmap_syscall", "src/interface/misc.rs::libc_mmap"]}
{"id": "C118", "title": "Shared mappings and file calls see the same bytes", "statement": "While a shared mapping of an existing file is in place, loading from it gives the bytes that read, pread and stat report, and storing into it is seen by them at once; a new mapping shows the file as it is; after munmap every access to the range faults and all other addresses are unaffected.", "quantifier": "all histories of calls, mappings, loads and stores; all files, offsets and addresses", "why_tests_cant": "the mapping refers to a host file that other calls may remove and create again under the same name; agreement is a relation between two states over any history", "anchors": ["src/safeposix/syscalls/fs_calls.rs::mmap_syscall", "src/safeposix/syscalls/fs_calls.rs::munmap_syscall", "src/safeposix/syscalls/fs_calls.rs::open_syscall", "src/interface/file.rs"]}
{"id": "C119", "title": "The answers of mmap and munmap tell what happened", "statement": "mmap answers the address of the mapping or one of the documented error codes; munmap answers 0 on success and EINVAL otherwise; from the answer the caller knows whether a mapping was made.", "quantifier": "all requests in all reachable states, all addresses a 64-bit kernel may choose, all refusals of the kernel", "why_tests_cant": "the answer is a 32-bit number made from a 64-bit address that the kernel chooses", "anchors": ["src/interface/misc.rs::libc_mmap", "src/safeposix/syscalls/fs_calls.rs::mmap_syscall", "src/safeposix/syscalls/fs_calls.rs::munmap_syscall"]}
{"id": "C120", "title": "The dispatcher gives the socket calls the meaning of their words", "statement": "Each of the 25 calls on local sockets, pipes and readiness, made as a number and six 64-bit words with structures in memory (addresses, descriptor sets, poll and epoll records, option values, timeouts), either does exactly what the call with the decoded values does, or is refused with the documented error and no effect. The meaning is unique, every argument list has one, and different paths are different sockets.", "quantifier": "all states, all words, all contents of memory, all processes", "why_tests_cant": "the words and the memory they point to range over a space far too large; a wrong sign extension or field offset shows only for particular values", "anchors": ["src/safeposix/dispatcher.rs::dispatcher", "src/interface/types.rs::get_sockaddr", "src/interface/types.rs::get_fdset", "src/interface/types.rs::duration_fromtimeval"]}
{"id": "C121", "title": "Socket calls write memory only where their result belongs", "statement": "A call changes no byte of the caller's memory outside the buffer in which its result is to be stored, within the length that the caller gave; a call that fails, or that has not returned, has changed none at all.", "quantifier": "all states, all calls, words and memories", "why_tests_cant": "a stray store outside the buffer is not visible in the answer; the claim is about every other address", "anchors": ["src/safeposix/dispatcher.rs::dispatcher", "src/interface/types.rs::copy_out_sockaddr", "src/safeposix/syscalls/net_calls.rs::poll_syscall", "src/safeposix/syscalls/fs_calls.rs::pipe2_syscall"]}
{"id": "C122", "title": "select, poll and epoll_wait store in memory what is ready", "statement": "After select the bits that are on in the caller's sets are a subset of those it gave, their number is the answer, and they are exactly the descriptors that can be read (or written) without waiting; the revents of poll and the events of epoll_wait are stored in the right record, with the right count, the caller's data, and only for requested conditions that hold.", "quantifier": "all states, sets, lists of records, registrations and memories", "why_tests_cant": "readiness is a relation between stored bits and what later calls would do, for any number of descriptors", "anchors": ["src/safeposix/syscalls/net_calls.rs::select_syscall", "src/safeposix/syscalls/net_calls.rs::poll_syscall", "src/safeposix/syscalls/net_calls.rs::epoll_wait_syscall", "src/interface/types.rs::fd_set"]}
{"id": "C123", "title": "Bytes travel between processes' memories over local sockets unchanged", "statement": "The bytes that send or write take from the sender's buffer, as many as the answer says, are what recv, recvfrom or read at the other end store in the receiver's buffer, in order, each once (or again after a peek), and the answer is their number.", "quantifier": "all reachable states, all buffers, lengths and flags, any two processes", "why_tests_cant": "depends on all bytes sent before and not yet taken, and on the peek buffer", "anchors": ["src/safeposix/dispatcher.rs::dispatcher", "src/safeposix/syscalls/net_calls.rs::send_syscall", "src/safeposix/syscalls/net_calls.rs::recv_common", "src/interface/pipe.rs"]}
{"id": "C124", "title": "getsockname, getpeername and accept agree on the addresses of local sockets", "statement": "getsockname tells the address given to a successful bind for as long as the socket lives, whatever happens in between and through whichever descriptor; getpeername of a client tells the address it connected to; accept stores the address of the client whose request it serves, which is also what getpeername of the new socket and getsockname of the client tell; the sockets of a pair tell each other's names. The address is cut to the length that the caller gave, and its full length is stored.", "quantifier": "all reachable histories of all processes, all addresses, buffers and lengths", "why_tests_cant": "the addresses are set by calls far apart in the history and in other processes", "anchors": ["src/safeposix/syscalls/net_calls.rs::getsockname_syscall", "src/safeposix/syscalls/net_calls.rs::getpeername_syscall", "src/safeposix/syscalls/net_calls.rs::accept_syscall", "src/safeposix/syscalls/net_calls.rs::socketpair_syscall", "src/interface/types.rs::copy_out_sockaddr"]}
{"id": "C125", "title": "Processes that attach a shared memory segment see the same bytes", "statement": "A load from memory attached with shmat gives the byte last stored at that place of the segment, by any process and through any address; a store is done exactly where the segment was attached without SHM_RDONLY, and faults elsewhere. After two attaches of one segment at places that do not overlap, what is stored through one is loaded through the other.", "quantifier": "all histories of calls, loads and stores of any number of processes, all segments, addresses and offsets", "why_tests_cant": "the byte depends on the interleaving of the stores of all processes and on every attach, detach, fork and exec before", "anchors": ["src/safeposix/shm.rs::map_shm", "src/safeposix/shm.rs::unmap_shm", "src/safeposix/syscalls/fs_calls.rs::shmat_syscall", "src/safeposix/syscalls/fs_calls.rs::shmdt_syscall"]}
{"id": "C126", "title": "A new segment is empty and its contents stay until they are overwritten", "statement": "A segment whose identifier was given to nobody before is full of zeros and lies nowhere in memory. Attach, detach, fork, exec, exit, removal and new segments leave the bytes of a segment as they are; a store changes one byte of one segment.", "quantifier": "all histories of any number of processes", "why_tests_cant": "identifiers, keys and files behind segments are reused over arbitrarily long histories", "anchors": ["src/safeposix/syscalls/fs_calls.rs::shmget_syscall", "src/safeposix/shm.rs::new_shm_segment", "src/interface/file.rs::new_shm_backing", "src/safeposix/shm.rs::map_shm", "src/safeposix/shm.rs::unmap_shm", "src/safeposix/syscalls/fs_calls.rs::shmat_syscall", "src/safeposix/syscalls/fs_calls.rs::shmdt_syscall"]}
{"id": "C127", "title": "The table of attachments is what lies in memory", "statement": "The attachments that shmdt and the count of IPC_STAT know are exactly the places in the memory of running processes where a segment begins; each lies there with all its bytes. shmdt at such a place answers the segment that lies there, takes away its pages and no others.", "quantifier": "all histories of any number of processes", "why_tests_cant": "table and address space are separate and drift apart only after particular sequences of attaches", "anchors": ["src/safeposix/shm.rs::map_shm", "src/safeposix/shm.rs::unmap_shm", "src/safeposix/syscalls/fs_calls.rs::shmat_syscall", "src/safeposix/syscalls/fs_calls.rs::shmdt_syscall", "src/safeposix/syscalls/fs_calls.rs::shmctl_syscall"]}
{"id": "C128", "title": "Attaching shared memory changes the memory of the caller only", "statement": "A call, load or store of one process leaves what lies in the memory of every other process as it was, except that fork and exec make the memory of the new process.", "quantifier": "all histories of any number of processes, all addresses and sizes", "why_tests_cant": "the address and the size are arbitrary 64-bit numbers and the neighbouring memory belongs to another process", "anchors": ["src/safeposix/shm.rs::map_shm", "src/safeposix/shm.rs::unmap_shm", "src/safeposix/syscalls/fs_calls.rs::shmat_syscall", "src/safeposix/syscalls/fs_calls.rs::shmdt_syscall", "src/safeposix/syscalls/fs_calls.rs::shmget_syscall"]}
{"id": "C129", "title": "The numbers and words of process, signal, timer, shared memory and lock calls mean the documented calls", "statement": "Each of these calls, given as a number and six words, makes exactly the call that its words stand for, by the calling process and with its answer; words that stand for no value are refused with EINVAL or EFAULT and change nothing; every choice of words is one of these, save for time limits that do not fit (the library goes down) and overlapping records; so what holds for histories of calls holds for programs that use numbers and words.", "quantifier": "all states, memories, words, build modes, and histories of any length", "why_tests_cant": "six 64-bit words and all of memory; some two conversions per call", "anchors": ["src/safeposix/dispatcher.rs::dispatcher", "src/interface/types.rs::get_int", "src/interface/types.rs::duration_fromtimespec", "src/interface/types.rs::get_sigactionstruct", "src/interface/types.rs::get_itimerval"]}
{"id": "C130", "title": "Process, signal, timer and shared memory calls write only the record they are given, and write the documented values there", "statement": "sigaction stores the action last set by the process's history, sigprocmask the mask of the thread, setitimer the timer, IPC_STAT key, size and attachments of the segment, at the documented offsets; no other byte of memory changes, and none if the call fails.", "quantifier": "all states, words, addresses and histories", "why_tests_cant": "the addresses and the history before the call are arbitrary", "anchors": ["src/safeposix/syscalls/sys_calls.rs::sigaction_syscall", "src/safeposix/syscalls/sys_calls.rs::sigprocmask_syscall", "src/safeposix/syscalls/sys_calls.rs::setitimer_syscall", "src/safeposix/syscalls/fs_calls.rs::shmctl_syscall"]}
{"id": "C131", "title": "sigaction, sigprocmask and setitimer set the given value, also if the same record receives the old one", "statement": "The value that the record of the new value holds when the call is made is the one that is set (and is reported by later calls), and the record of the old value gets the one that was set before, also if the two records overlap or are the same.", "quantifier": "all states, signals, records and addresses, all later histories", "why_tests_cant": "tests use separate records; addresses are arbitrary", "anchors": ["src/safeposix/syscalls/sys_calls.rs::sigaction_syscall", "src/safeposix/syscalls/sys_calls.rs::sigprocmask_syscall", "src/safeposix/syscalls/sys_calls.rs::setitimer_syscall"]}
{"id": "C132", "title": "Optional addresses and valid time limits are accepted", "statement": "shmat with the null address attaches at an address that the library chooses; sem_timedwait with any limit of less than 10^9 nanoseconds takes a free semaphore at once, and otherwise waits until it is posted or the limit is over.", "quantifier": "all states, all limits, both build modes", "why_tests_cant": "limits range over 2^64 seconds times 10^9 nanoseconds, and release and debug builds differ", "anchors": ["src/interface/types.rs::duration_fromtimespec", "src/interface/types.rs::get_mutcbuf", "src/safeposix/dispatcher.rs::SEM_TIMEDWAIT_SYSCALL", "src/safeposix/syscalls/fs_calls.rs::sem_timedwait_syscall"]}
{"id": "C133", "title": "The quick calls are read and write", "statement": "A program in which reads and writes use quick_read and quick_write, which go past the dispatcher, ends in the same state, with the same memory and output and the same answers, as the program that makes these calls through the dispatcher.", "quantifier": "all programs, states, descriptors (also negative ones), buffers and counts", "why_tests_cant": "a test compares single calls; equality of whole programs with arbitrary mixtures of both kinds of calls needs a proof", "anchors": ["src/safeposix/dispatcher.rs::quick_read", "src/safeposix/dispatcher.rs::quick_write", "src/interface/types.rs::get_mutcbuf"]}
{"id": "C134", "title": "sync_file_range changes nothing and answers what the host says", "statement": "sync_file_range leaves files, descriptors and memory as they are; on an ordinary file with valid flags it hands the offset, length and flags to the host and answers its result, and it answers EINVAL for other flags, ESPIPE for directories and devices and EBADF for everything else, without aborting; it succeeds where fsync does.", "quantifier": "all reachable states, all words, all answers of the host", "why_tests_cant": "the answers of the host cannot be produced by tests, and the call must answer after any history", "anchors": ["src/safeposix/syscalls/fs_calls.rs::sync_file_range_syscall", "src/interface/file.rs::sync_file_range", "src/safeposix/dispatcher.rs::SYNC_FILE_RANGE"]}
{"id": "C135", "title": "ioctl switches O_NONBLOCK and nothing else", "statement": "FIONBIO on a socket sets O_NONBLOCK if the number at the pointer is not zero and clears it otherwise; no other flag, descriptor, socket or byte of memory changes; afterwards no read, write, send or recv on the descriptor waits, or none answers EAGAIN; closed descriptors, null pointers, other requests and descriptors that are no sockets get their errors.", "quantifier": "all states, descriptors, requests, pointers and memories", "why_tests_cant": "that nothing else changes, and that no later call waits whatever the state of the socket, ranges over all states", "anchors": ["src/safeposix/syscalls/fs_calls.rs::ioctl_syscall", "src/interface/types.rs::get_ioctl_int", "src/safeposix/dispatcher.rs::IOCTL_SYSCALL"]}
{"id": "C136", "title": "mmap and munmap can be called through the entry point as programs call them", "statement": "The six words of mmap and munmap reach the call as the address, length, protection, flags, descriptor and offset that the caller meant, words that stand for no such values are refused with an error and no effect, the two calls never change files, descriptors or processes, and every request that the rules of mmap allow can be made, also with a null address (the system chooses) and with descriptor -1.", "quantifier": "all words, all histories of calls, loads and stores, all answers of the host", "why_tests_cant": "the words range over 2^384 values and the answer of the host is outside the control of a test", "anchors": ["src/safeposix/dispatcher.rs::MMAP_SYSCALL", "src/safeposix/dispatcher.rs::MUNMAP_SYSCALL", "src/interface/types.rs::get_mutcbuf", "src/safeposix/syscalls/fs_calls.rs::mmap_syscall"]}
{"id": "C137", "title": "The words of a call on an internet socket mean one call, and its bytes and addresses pass unaltered", "statement": "Calls on AF_INET and AF_INET6 sockets through the entry point are the calls that the six words and the caller's memory describe: words that stand for no call are refused with an error and without effect; the host kernel is given exactly the bytes and the address that lie in memory; memory changes only in the received bytes, never more than the length given, or in the address and its length, and not at all on an error; the sixteen bytes of an address given to bind or connect come back from getsockname or getpeername; IPv6 addresses in the system's layout are understood like IPv4 ones; and no call ends the library.", "quantifier": "all words, all memory contents, all programs of calls and stores by all processes, all answers of the host kernel", "why_tests_cant": "the words and the memory are unbounded for a test, and the kernel's answers are outside its control", "anchors": ["src/safeposix/dispatcher.rs::dispatcher (BIND_SYSCALL, CONNECT_SYSCALL, SENDTO_SYSCALL, RECVFROM_SYSCALL, GETSOCKNAME_SYSCALL, GETPEERNAME_SYSCALL, ACCEPT_SYSCALL)", "src/interface/types.rs::get_sockaddr", "src/interface/types.rs::copy_out_sockaddr", "src/safeposix/syscalls/net_calls.rs::getsockname_syscall"]}
{"id": "C138", "title": "Threads keep their masks and processes get their signals", "statement": "The mask of a thread is what the history of sigprocmask calls made it, starting, for the first thread of a child or of a new program, from the mask of the thread that called fork or exec, and otherwise from the empty one. A signal is given to the host only by kill (to the thread that stands for the target process, which must exist), by the end of a process (SIGCHLD to its parent, if that still exists), by a timer (SIGALRM to its owner) and by unblocking; kill answers EINVAL outside the process table and for numbers that are no signals, ESRCH for a process that does not exist and 0 otherwise; and no such call ends the library.", "quantifier": "all histories of process, thread, signal and timer calls", "why_tests_cant": "unbounded histories; the target of a signal depends on all forks, execs, exits and thread starts before", "anchors": ["src/safeposix/syscalls/sys_calls.rs::kill_syscall", "src/safeposix/syscalls/sys_calls.rs::fork_syscall", "src/safeposix/syscalls/sys_calls.rs::exit_syscall", "src/safeposix/dispatcher.rs::rustposix_thread_init", "src/interface/misc.rs::lind_kill_from_id"]}
