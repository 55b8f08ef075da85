{
'C01':'M_Entry; list algebra, div/mod','C02':'M_DBInfo; computation on the header bytes','C03':'M_IndexBlock; induction over slots',
'C04':'M_IndexBlock; arithmetic with 32 bit wrap; Flocq for the float division','C05':'M_WinBlock; induction over entries',
'C06':'M_Topic; induction over parts, relation of parts and depth from the parser','C07':'M_Wal; induction over records',
'C08':'M_Wal; all crash points of the system calls','C09':'M_MsgId; arithmetic','C10':'M_MsgId; arithmetic','C11':'M_Hash; strong induction by 8',
'C12':'M_Bloom; bitwise reasoning, any history of additions','C13':'M_Base32; bit level','C14':'M_Mac over an abstract cipher',
'C15':'M_Lease; disjointness invariant over all histories','C16':'M_Lease; counting bytes','C17':'M_Lease; induction over the list',
'C18':'M_BlockRange; induction over the sorted list','C19':'M_Topic, M_Trie; invariant of the tree over all histories',
'C20':'M_Topic, M_Trie; exact characterisation of lookup','C21':'M_Topic, M_Trie; from C20 and the XOR hash','C22':'M_Window; invariants of both lookups',
'C23':'M_DB; any state','C24':'M_Get, M_Window, M_DB; sortedness of the loop','C25':'M_DB; case analysis of the whole step, unobservability',
'C26':'M_DB; every state and history','C27':'M_DB; invariant of C64, and witness runs','C28':'M_DB; invariants of C62 and C63 joined to a book of slots, commits and restarts; witness run','C29':'M_DB; invariant over histories with reopening, interleaved counters',
'C30':'M_DB; witness run, replay from C35, recovery after Close from C63','C31':'M_DB; C63, and a witness run','C32':'M_Window; chain invariant of the window file over all histories',
'C33':'M_DB; induction over the batch function; witness runs','C34':'M_MemDB; invariant of blocks, filters and query cache over all histories','C35':'M_MemDB; replay of any logs of the given form',
'C36':'M_Lock; interleavings of system calls','C37':'M_Consistent; invariant of the anchor table','C38':'M_Query; case analysis; for the text, induction on the digits (P_QueryText)','C39':'M_Query; case analysis',
'C40':'M_Keys; bit level and case analysis','C41':'M_Leader; quorum intersection over all schedules','C42':'M_Ring; sortedness, permutation invariance',
'C43':'M_Wire; induction over digits and over the stream','C44':'M_MsgIds; invariant','C45':'M_Subs; invariant','C46':'M_Patricia; induction over total length',
'C47':'M_Batch; invariant over schedules','C48':'M_Keys; bit level','C49':'M_BlockStore; invariant of index and data files over all histories',
'C50':'M_BlockStore; from the invariant of C49; M_DB for memory; every state','C51':'M_Wal; cut files','C52':'M_TrieConc; interleavings of critical sections',
'C53':'M_Leader; witness with a restart','C54':'M_DB; witness runs','C55':'M_DB; witness run','C56':'M_DB; from C62; witness run','C57':'M_DB; invariant of C62 (the topic is in the tree), equality of the two puts; witness run','C58':'M_DB; witness run',
'C59':'M_DB; the same book (also over restarts), reading from the files alone; witness run','C60':'M_DB; C61, and witness runs','C61':'M_DB; invariant linking memory, time window, tree and message list over any session',
'C62':'M_DB; the same invariant with index, data and window files through syncs',
'C63':'M_DB; the invariant of C62 carried through Close, Open, log recovery and loading of the tree',
'C64':'M_DB; invariant linking what memory holds to the messages put and not deleted, over any history; witness run',
'C66':'M_Query, M_MsgId; arithmetic of seconds; over sessions the invariant of C24 with the times of messages and of window entries: an entry is never older than its message; over restarts with the invariant of C63, as entries written by Open carry the time of the Open','C67':'M_Topic; bit arithmetic on the number',
'C65':'M_DB; every state; witness run',
'C68':'M_Expiry; where the entries of the bucket come from, over any history','C69':'M_Expiry; invariant of the bucket over any order of meetings and jobs','C70':'M_Expiry, M_Lease; histories of C15; witness run',
'C71':'M_MemDB; invariant (the count of a block is the number of its records) over any history','C72':'M_MemDB; the invariant of C71 and one on the log files of a block, over any history','C73':'M_MemDB; any state, closed',
'C74':'M_MemDB; invariant of the store during a batch, over any acts of the batch','C75':'M_Wal, M_MemDB; replay with one damaged log, then the refinement of C35; witness runs',
'C76':'M_Stream; invariant of the reading place, induction over reads and writes','C77':'M_Sniff; matchers are arbitrary reading programs, invariant: remembered and coming bytes are all bytes',
'C78':'M_Stats; each line is assigned to a packet with a fate, over any history','C79':'M_Sample; the ring is a rotation of the newest times; sorting',
'C80':'M_Conn; invariant (the log holds the publication) over any further run','C81':'M_Conn; invariant on log, batches, goroutines and outputs over all runs','C82':'M_Conn; fold over the keys of the log; witness runs',
'C83':'M_Conn; invariant (no entry under the key) over any further run','C84':'M_Conn; case analysis of all steps with the invariant of C81','C85':'M_Conn; the invariant of C81 with owners of log entries','C86':'M_Conn; induction over the subscribers, connections only gain; for all interleavings an invariant over any run: the subscriber has the message or a goroutine still has it to send; witness run with mode 3','C87':'M_Conn; the invariant of C86 for what is sent behind a given packet; witness run',
'C88':'M_Proto; decoding inverts encoding, field by field, for any decoder state','C89':'M_Proto; case analysis of the place of the break; bound on what a short header can say; witness appended to any stream',
'C90':'M_Failover; invariant on rings and pings of one leader; witness run with an invariant kept by every continuation','C91':'M_Failover; invariant over all runs; induction over the nodes for the witness',
'C92':'M_Route; projection of a run to one node (invariant: nothing is proxied); induction over the subscribers of both nodes; witness runs','C93':'M_Route; invariant (numbers of nodes, owners of goroutines and connections) over all runs; witness run',
'C94':'M_SubStore; a run of the store is one of the database (C64), messages under the contract of subscriptions are subscriptions; witness runs','C95':'M_SubStore; corollary of C94 over the rest of the run; witness runs','C96':'M_SubStore; NewID and Put are one Put without id, then C62; pigeonhole over C23 for the limit; witness runs',
'C97':'M_Conn; invariant: identifiers of stored subscriptions and counters are distinct numbers, each counter belongs to one connection; what other requests do is local to their connection','C98':'M_Conn; invariant: each stored subscription of the connection has a counter of positive value with its identifier; witness runs',
'C99':'M_Locks; ranking of the locks kept by every call (compositional), so that a waiting goroutine always leads to one that waits higher; weight of a state for the length of runs; witness schedules','C100':'M_Locks; the ranking of C99, with the locks left by Close at the bottom; witness schedule',
'C101':'M_Race; one invariant over all runs (blocks in the map have their own buffers, offsets and logs agree, the place of every timely record); witness runs, the second with an invariant for what comes after',
'C102':'M_TrieRace; invariant over all runs: the place of every call in the trie and every topic of the summary is reached from the root, unless a node above was replaced; witness run, with an invariant for what comes after',
'C103':'M_DB over M_MemDB; the sessions of C62 for the part that holds; witness runs of the whole database',
'C104':'M_Live; one invariant over all timely runs: the blocks of each topic, in the file or about to be written, form a chain with exactly the stored messages; memory, window and index agree with where each Put and the Sync are; witness runs, with 335 entries in a block', 
'C105':'M_Maps (M_Locks with the uses of maps); each map has locks: every reader holds one of them, every writer all of them for writing, proved of each list of operations; locks exclude each other over all runs. C105_locks: the locks are exactly those of M_Locks.',
'C106':'M_Fsync; no call flushes (case analysis), so any sublist of the operations may be what is kept; for a file set with a map: the kept operations have the same effect on a flushed file; witness run','C107':'M_Fsync; induction over the files; witness run',
'C108':'M_Pool; invariant over all runs (each log is in one place); infinite fair runs: a measure of the place of the log falls whenever the goroutine in charge has its turn; witness run for every capacity, with an invariant for what comes after','C109':'M_Pool; the same, through the stages of Close; witness runs',
'C110':'M_Route; invariant over all runs of a cluster: while the connection is open, who has subscriptions of its number is its own node and the owner, through the proxied connection; after the owner was told, none, and nobody can add one; frames for the steps of others; witness run with a restart',
'C111':'M_Pool; the line of written and queued logs changes only by one log at its end or one dropped log; each log is in one place (C108)',
'C112':'M_Close; invariant over all runs, rank of the phase of closing; a stuck state closed under all steps',
'C113':'M_Close; the invariant of C112; the stuck state keeps all who wait; witness run',
'C114':'M_Relay over M_SubStore and M_DB; simulation by a session of C66, where no subscription counts as a message',
'C115':'M_Meter beside M_Conn; invariant that each entry of an open connection has exactly one stored subscription, over the invariant of C97; witness runs',
'C116':'M_Varz beside M_DB; every state and run for the counters of calls; the book of C28 and the Sync lemma of C62 for those of Sync; witness runs',
'C117':'M_DB; the invariant of C62 over slots of one nanosecond, so that the block of a batch is the current slot; every step does the same whatever the current slot is (P_Batches); C117_handed for every state',
'C118':'M_MemDB and M_Wal; the block of the batch holds exactly the puts not yet written, so each Write appends one log; C35 for the Open after the crash; the released times only shrink by frees',
'C120':'M_Uptime; induction on the digits of a number, then the divisions one by one (P_Uptime)',
'C121':'M_Percent over M_Sample; the positions for each of the 51 possible numbers of times are computed with SpecFloat, everything else is proved for all times from the order of the snapshot (C79)',
'C122':'M_Lease, M_Consistent; the binary search gives the first that fits in an ordered list; insertion sort; two lists computed with the hash of the code (P_Reuse)',
'C123':'M_Topic; the first field of the text up to the mark (P_Where)',
'C119':'M_DB; the invariant of C63 with the logs made explicit; each message is stored, in a log, or in memory under the time of a queued or the current log; Open of the files as they are, with the sequence of the info file (P_Restart5 reopen_files, P_Crash)',
}
