{
 "C01": "path parsing and `normpath` against an independent word-by-word reading; induction over components.",
 "C02": "`metawalkandparent` over an arbitrary table of inodes against an inductive name-following relation; induction over the path.",
 "C03": "invariant of the whole file-system world over all calls: every entry refers to an object, every object has at least as many links as names.",
 "C04": "exact counting invariant over histories, lower bound with displacing renames.",
 "C05": "exact counting invariant over histories, lower bound with displacing renames.",
 "C06": "per-call theorems with frame conditions in reachable states; the race in a small-step model.",
 "C07": "per-call theorems with frame conditions in reachable states; the race in a small-step model.",
 "C08": "per-call theorems with a complete description of which paths change, in reachable states.",
 "C09": "per-call theorems with a complete description of which paths change, in reachable states.",
 "C10": "per-call theorems with a complete description of which paths change, in reachable states.",
 "C11": "case analysis over all calls and all error returns.",
 "C12": "monotone counter invariant, and through recovery.",
 "C13": "invariant of every history (no condition on the calls): the names, the '..' and the link counts of directories, with a ghost set of directories that lost their name to a rename; root reachability by induction on inode numbers.",
 "C14": "per-call theorems over the descriptor tables of all processes, in all or in reachable states.",
 "C15": "per-call theorems over the descriptor tables of all processes, in all or in reachable states.",
 "C17": "per-call theorems over the descriptor tables of all processes, in all or in reachable states.",
 "C18": "per-call theorems over the descriptor tables of all processes, in all or in reachable states.",
 "C19": "per-call theorems over the descriptor tables of all processes, in all or in reachable states.",
 "C20": "per-call theorems over the descriptor tables of all processes, in all or in reachable states.",
 "C21": "per-call theorems over the descriptor tables of all processes, in all or in reachable states.",
 "C16": "counting invariant: references equal descriptors over all processes.",
 "C35": "counting invariant: references equal descriptors over all processes.",
 "C22": "refinement: the file is an array and the calls are array operations, over any history.",
 "C23": "per-call theorems in reachable states, induction over call sequences.",
 "C24": "per-call theorems in reachable states, induction over call sequences.",
 "C25": "per-call theorems in reachable states, induction over call sequences.",
 "C26": "per-call theorems in reachable states, induction over call sequences.",
 "C27": "per-call theorems in reachable states, induction over call sequences.",
 "C28": "per-call theorems in reachable states, induction over call sequences.",
 "C29": "small-step pipe model; invariants over all schedules; concrete schedules for the refutations.",
 "C30": "small-step pipe model; invariants over all schedules; concrete schedules for the refutations.",
 "C31": "small-step pipe model; invariants over all schedules; concrete schedules for the refutations.",
 "C32": "small-step pipe model; invariants over all schedules; concrete schedules for the refutations.",
 "C33": "small-step pipe model; invariants over all schedules; concrete schedules for the refutations.",
 "C34": "small-step pipe model; invariants over all schedules; concrete schedules for the refutations.",
 "C68": "small-step pipe model; invariants over all schedules; concrete schedules for the refutations.",
 "C36": "per-call theorems; witnesses.",
 "C67": "per-call theorems; witnesses. Positive part: the F_GETFL / F_SETFL read-modify-write keeps close-on-exec for every flag word (`setfl_idiom`), and F_SETFD keeps every status bit (`setfd_getfl`).",
 "C37": "byte-level log file; crash after any prefix of the memory writes; induction over entries.",
 "C73": "byte-level log file; crash after any prefix of the memory writes; induction over entries.",
 "C74": "byte-level log file; crash after any prefix of the memory writes; induction over entries.",
 "C38": "world plus metadata file, log and host files as an event trace; replay invariant over all calls and crash points.",
 "C39": "world plus metadata file, log and host files as an event trace; replay invariant over all calls and crash points.",
 "C40": "world plus metadata file, log and host files as an event trace; replay invariant over all calls and crash points.",
 "C41": "world plus metadata file, log and host files as an event trace; replay invariant over all calls and crash points.",
 "C75": "world plus metadata file, log and host files as an event trace; replay invariant over all calls and crash points.",
 "C42": "handle and segment tables of any number of processes; counting invariants and per-call theorems.",
 "C43": "handle and segment tables of any number of processes; counting invariants and per-call theorems.",
 "C44": "handle and segment tables of any number of processes; counting invariants and per-call theorems.",
 "C46": "handle and segment tables of any number of processes; counting invariants and per-call theorems.",
 "C48": "handle and segment tables of any number of processes; counting invariants and per-call theorems.",
 "C71": "handle and segment tables of any number of processes; counting invariants and per-call theorems.",
 "C45": "small-step semaphore and advisory-lock models; invariants over all schedules.",
 "C47": "small-step semaphore and advisory-lock models; invariants over all schedules.",
 "C69": "small-step semaphore and advisory-lock models; invariants over all schedules. Positive part: from any polite run in which every lock on the open file has been given back and only one thread is inside flock on it, that thread's call returns 0 (`alone_wins`).",
 "C70": "small-step semaphore and advisory-lock models; invariants over all schedules.",
 "C49": "signal sets, masks, actions, timers and process identity; bit lemmas, refinement to functions of the history.",
 "C50": "signal sets, masks, actions, timers and process identity; bit lemmas, refinement to functions of the history.",
 "C51": "signal sets, masks, actions, timers and process identity; bit lemmas, refinement to functions of the history.",
 "C52": "signal sets, masks, actions, timers and process identity; bit lemmas, refinement to functions of the history.",
 "C53": "signal sets, masks, actions, timers and process identity; bit lemmas, refinement to functions of the history.",
 "C54": "signal sets, masks, actions, timers and process identity; bit lemmas, refinement to functions of the history.",
 "C66": "signal sets, masks, actions, timers and process identity; bit lemmas, refinement to functions of the history.",
 "C55": "port tables; search lemma, invariants over histories.",
 "C56": "port tables; search lemma, invariants over histories.",
 "C57": "state machine of local sockets, pipes and epoll instances; ghost counters of bytes and requests, invariants over histories, per-call theorems; small-step model of receives with threads.",
 "C58": "state machine of local sockets, pipes and epoll instances; ghost counters of bytes and requests, invariants over histories, per-call theorems; small-step model of receives with threads.",
 "C59": "state machine of local sockets, pipes and epoll instances; ghost counters of bytes and requests, invariants over histories, per-call theorems; small-step model of receives with threads.",
 "C60": "state machine of local sockets, pipes and epoll instances; ghost counters of bytes and requests, invariants over histories, per-call theorems; small-step model of receives with threads.",
 "C61": "state machine of local sockets, pipes and epoll instances; ghost counters of bytes and requests, invariants over histories, per-call theorems; small-step model of receives with threads.",
 "C62": "state machine of local sockets, pipes and epoll instances; ghost counters of bytes and requests, invariants over histories, per-call theorems; small-step model of receives with threads.",
 "C63": "state machine of local sockets, pipes and epoll instances; ghost counters of bytes and requests, invariants over histories, per-call theorems; small-step model of receives with threads.",
 "C64": "bijections, bitwise and by the finite table.",
 "C65": "bijections, bitwise and by the finite table.",
 "C72": "small-step model of the lock operations; progress over all schedules.",
 "C76": "the conversions as functions on machine words; arithmetic for all values.",
 "C77": "the conversions as functions on machine words; arithmetic for all values.",
 "C78": "memory as a function from addresses to bytes; round trip and frame for all memories, addresses and buffer sizes.",
 "C79": "characters as codes; complete characterisation of what is accepted.",
 "C80": "bytes of the buffers, tied to the file-system model by theorems about `step`.",
 "C81": "bytes of the buffers, tied to the file-system model by theorems about `step`.",
 "C82": "sixteen 64-bit words; bit lemmas; induction over the kernel's answer.",
 "C83": "NetModel returns Dies wherever the code unwraps, subtracts or shifts out of range. Case analysis over all calls with the structural invariants (handles, pipes, inodes, descriptor numbers); counterexample histories for the rest.",
 "C84": "Invariant over histories: an address is in the bound set only after a successful bind and not after an unlink; counterexample histories.",
 "C85": "FdRaceModel: small-step model of the descriptor table, one lock per entry, one transition per lock section. Invariant: what the returned calls say is open is what the table holds.",
 "C86": "FdRaceModel. A decreasing measure bounds the steps of every schedule; with dup2 calls ordered by some ranking the holder of the highest lock can always move. Deadlock of two crossed dup2 calls as counterexample.",
 "C87": "FdRaceModel. Invariant: the count of an object is the number of entries that refer to it and for which no thread has already counted down; counterexample schedules for the overlaps that break it.",
 "C88": "FdRaceModel. Invariant on the scan: every number passed over was open, or about to be looked at by a call of another thread, at some moment of the call; counterexample schedules.",
 "C89": "InetModel. Every call is a sequence of small moves on one socket; invariant: the kernel sockets open after the calls made so far are those of the sockets with a descriptor, by induction over histories.",
 "C90": "Invariant: a socket taken for connected has a kernel connection or was shut down; exact form of the calls that send; counterexample histories (shutdown before connect, retry after a failed connect).",
 "C91": "Invariants on the local and remote name from the naming call on, preserved by every call but shutdown; counterexample histories for connect, accept and a refused bind.",
 "C92": "Simulation of the port table by a list of reservations (PortProofs), one for each socket with a name, for histories in which no bind was refused; counterexample histories otherwise.",
 "C93": "Form of the calls that pass a datagram to the kernel; invariant relating the stored peer to the history of connects; counterexample histories.",
 "C94": "Invariant relating the kernel socket's mode to the calls that set it; case analysis of receive and accept; counterexample histories for the places where the two modes part.",
 "C95": "Invariant: bytes handed out by the kernel = bytes read so far ++ bytes kept from peeks, for every stream socket, over all histories.",
 "C96": "Invariant: a descriptor through which the kernel socket was connected, listened on or accepted carries the kernel's number until it is closed; counterexample histories.",
 "C97": "Invariants for the unwraps reached by each call (kernel socket present when the state says so, ports held by named sockets), giving totality of the step function; aborting histories.",
 "C98": "Small-step model of the name calls with one step per critical section; for each bad interleaving a schedule, and all orders of the calls enumerated to show that none has that outcome.",
 "C99": "Ownership of objects by base names as an invariant of all interleavings, steps of different processes commute, so every run can be sorted into one call at a time; a call made alone is shown equal to the step function of the sequential model.",
 "C100": "A measure that every step decreases; a walk holds one shared lock and wants only shared ones, so some process can always move. The same when the map locks groups of objects: such runs are a subset of the others.",
 "C101": "Small-step model of log_metadata (copy under the lock of the object, append under the lock of the log); invariant for objects with one writer, every entry is a state the object had; a schedule in which an older copy is appended last.",
 "C102": "Model of the copy tool as a program of system calls on the file system model; induction over the tree and over the directories on the way; witnesses for empty directories, existing directories and hard links.",
 "C103": "Model of the update tool on the same base; the update of one file composes open, read, close, unlink and copy; induction over the tree, the files being apart; witnesses for an empty file in a missing directory and for a directory without write permission.",
 "C104": "Each call is its list of lock operations over one directory tree. A rank of lock requests such that whoever holds a lock asks only for requests of lower rank than those it blocks; the waiting request of least rank can then go on. Witness interleavings for the excluded cases.",
 "C105": "The machine is written out in FsViewSpec (no names of the model's helpers; only types of calls, answers and constants); its state has paths, objects, processes and the contents of pipes. Refinement: the relation shows between a world and a view is kept by each of the 35 calls (FsView1-5, FsViewDir for the path of an open directory and its listing, FsViewPipe for pipes), then induction over histories. Existence of a view for every reachable world by enumerating the paths layer by layer; the depth is bounded because a directory has a larger number than its parent (FsView6). Programs that adapt to the answers: induction over the program (ToolProofs1).",
 "C106": "A Boolean predicate aborts over the views of C105 lists the aborting combinations (FsAbortSpec). For each of the 35 calls it is proved that the model panics exactly when the predicate holds (FsView7, FsView8), using the invariants that open objects exist, link counts are positive and host files are there. With C105 this gives total correctness of histories. The claim itself is refuted by eight histories.",
 "C107": "EntryModel models the dispatcher's cases for 38 calls as a function from number, words and memory to a call of FsModel. EntrySpec gives an independent table of signatures, a relation between words and values, and the meaning of each call. Proof by relating every case of the dispatcher to a generic left-to-right chain over the table (EntryProofs2); strings via equivalence of the validation loop with the Unicode definition of UTF-8 (EntryProofs).",
 "C108": "The shape and size of every result of FsModel's step is bounded (EntryProofs3), then the writes of the delivery are confined to the area that the spec computes from number and words; induction over programs (EntryProofs4). The second half of the claim is refuted for fstatfs and pipe, proved for the others.",
 "C109": "Per result shape: the bytes stored at the offsets of the structure are read back by the spec's field reader (EntryProofs5). The completeness claim is refuted for the stat structure.",
 "C110": "Non-interference: decode depends only on the bytes the spec lists, the delivery does not depend on memory (EntryProofs5).",
 "C111": "Induction over programs for the states; composition of C107 and C109 with C105 and C106; composition with the exact read and write lemmas for the round trip (EntryProofs6).",
 "C112": "The host's output is a component of the state; per call, and by induction over programs (EntryProofs5, 6). The claim itself is refuted.",
 "C113": "A small-step system of threads of one process (CancelModel); what each event does to each thread, the table, the mutexes and the pipes, then invariants over histories (CancelProofs). That the runtime goes on is refuted.",
 "C114": "A count of the thread's own steps that decreases under every interleaving, with invariants for the pipe and the mutex (CancelProofs2). True of readers; for waiters with what is missing named; refuted for late waiters, two waiters of one mutex, writers and lockers, from invariants for the threads that never get on.",
 "C115": "The tool as a program that chooses each call by the answers so far (ToolModel). Its run on the machine of C105 is followed by induction over the depth of the tree and over the entries (ToolProofs2); a simulation lemma carries it to the code's own state, with no abort (ToolProofs1, from C105 and C106). True when modes are truthful and listings fit the buffer; refuted for larger directories and for directories whose mode says otherwise.",
 "C116": "As C115: the rounds of getdents concatenate to the whole listing (ToolProofs3), induction over the depth for tree; the drawing is specified inductively and shown to have one line per name (ToolProofs4).",
 "C117": "Model mmap and munmap over the file-system model, with a memory of mappings on host files, and loads and stores as further operations (`MapModel`). Invariant: every writable shared mapping has its grant in the history; prove what a store can change, the exact rules of mmap, and when mmap stops the library.",
 "C118": "Count the removals of every host file, so that a mapping knows whether it still shows the file in use. Prove agreement of loads with all readers while attached, what ends the attachment, and what a detached mapping shows; refute agreement in general: open with O_TRUNC removes the host file and makes a new one.",
 "C119": "Prove what the 32-bit answer tells (whether a mapping was made, and the address modulo 2^32); refute the documented answers: the whole address, the code when the kernel refuses (always -1, EPERM), 0 for munmap.",
 "C120": "Model the dispatcher's cases for these calls and the converters over a total byte memory, on top of NetModel (`WireModel`). Specify separately, as relations, what the words ask for and when they are refused (`WireSpec.asks`, `declines`); prove agreement with the decoder, uniqueness and completeness of the cases.",
 "C121": "Specify the addresses that each call may change; prove the frame for all calls, and that failing and waiting calls change nothing; refute this for poll, pipe and socketpair.",
 "C122": "Read the results from memory with a separate specification of sets and records, and connect them with what later calls would do (as C60); refute for the set of exceptional conditions.",
 "C123": "Combine decoding and delivery with the conservation of bytes in a stream (C57); prove that programs stay in reachable states.",
 "C124": "Prove that a local address, once set, is kept by every call (WireKeep), and combine with the identity of connection requests (C59); refute for failed binds and for accept with a full table.",
 "C125": "the map of the address space and the bytes of segments beside IpcModel's tables; a load against the newest store found by reading the history backwards, invariant over all events.",
 "C126": "corollaries of the same invariant with freshness of identifiers; induction over the events after a state.",
 "C127": "invariant between IpcSpec's attachments and the address space read from the history, over histories without failing or overlapping attaches; refuted for overlapping ones.",
 "C128": "frame condition on the address space per event, with the invariant that attachments fit; refuted for attaches past the end and for sizes above 2^32.",
 "C129": "decoding relation per call number (table of argument kinds) against the dispatcher model, for all words; refinement of histories of numbered calls to the histories of SigModel and IpcModel.",
 "C130": "frame condition and stored fields per call, against the history specifications of C52 and C43; refuted for failing sigaction and sigprocmask and for the other timers.",
 "C131": "holds for records that do not overlap, and the action set is read back after any history; refuted by programs that use one record.",
 "C132": "holds for limits that the multiplication by 10^9 does not overflow; refuted for five nanoseconds in checking builds and for the null address.",
 "C133": "step-by-step equality, induction over programs of EntryModel and of WireModel; refuted for null buffers.",
 "C134": "exact table of answers with the host's answer as a function; totality from the invariant of reachable worlds; refuted for numbers outside the table, unknown errors of the host and the converse of fsync.",
 "C135": "exact table and frame, bit by bit; effect on the transfers of NetModel; refuted for duplicates, pipes, FIOASYNC and numbers outside the table.",
 "C136": "the words of the two calls determine one call of MapModel or a refusal; induction over programs; refuted for the null address and for a widened -1.",
 "C137": "a relation from words and memory to INET calls, sound, complete and functional; induction over programs to histories of InetModel; round trip of addresses; refuted for IPv6 addresses and for the name of an unbound IPv6 socket.",
 "C138": "masks, main threads and existence as functions of the history (refinement by induction over calls of SigModel); the signals of every call determined by them; refuted for fork by a thread that is not the last one started."
}