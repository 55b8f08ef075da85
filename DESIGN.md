# Design of the formal model of unitdb

## Approach

The Go sources in `/repo` are read as text and transcribed, function by
function, into small total Gallina functions (`rocq/theories/M_*.v`).  Each
definition cites the file and lines it models and says where it simplifies.
Specifications that do not use model helpers live in `S_*.v`.  Proofs are in
`P_*.v`.  The property theorems are in `T_*.v`: those files contain only the
theorem statements, closed by `exact lemma`, followed by `Print Assumptions`,
and the non-vacuity `Example`s.

Numbers: Go integers are `N`/`Z`.  Where wrap-around matters the wrap is
written into the model (`mod 2^k`).  Byte strings are `list N`.  Go panics and
errors are values of result types; nothing is given a default in place of a
panic.

A property the code violates gets a theorem `..._refuted` exhibiting a concrete
execution of the faithful model, together with the largest part of the property
that was proved, named `..._partial`.  In MANIFEST.json such a property is
"partial"; its note says what fails and why.  Several refuted theorems may
belong to one property when there are several independent causes.

## Trusted base

* The Coq 8.16.1 kernel (`coqc`, `coqchk`) and its standard library.
* What `Print Assumptions` lists.  Every theorem named in MANIFEST.json is
  "Closed under the global context", except `C04_float_division`, which uses
  Flocq's binary64 and hence the axioms of the standard library's real numbers:
  `ClassicalDedekindReals.sig_not_dec`, `ClassicalDedekindReals.sig_forall_dec`,
  `FunctionalExtensionality.functional_extensionality_dep`,
  `Classical_Prop.classic`.  The list per theorem is at the end of this file.
* The reading of the Go source: the model is hand written.  The mutation runs
  (`seeded/LOG.jsonl`) test that the theorems notice realistic changes of the
  model; nothing but reading ties the model to the Go text.
* The code outside the repository, which enters as arguments with the
  properties the theorem statements name:
  - snappy: decoding gives back what was encoded (`so_unsnap`), results are
    bytes and at most 2^31 long;
  - chacha20poly1305: `aead_ok` (opening a sealed text with the same nonce gives
    it back and its length is 16 more), `so_seal`/`seal_bytes` (the result is
    bytes).  No secrecy or authenticity is assumed, so nothing is proved about
    them;
  - protobuf: the wire format of golang/protobuf v1.5.2 is written out in
    M_Proto (numbers, strings, nested messages, unknown fields, errors); the
    limit of 10000 nested groups is not; C43 has an abstract codec of headers;
  - `sort.Sort`/`sort.Slice`: the result is a sorted permutation;
  - `sync.RWMutex`: many readers or one writer, a waiting writer keeps out new
    readers (M_Locks.thread_step);
  - goroutines (M_Race, M_TrieRace): their critical sections happen one after the
    other, in any order; accesses without a lock are taken to be atomic;
  - `time.ParseDuration`: a function from strings to durations;
  - the FNV/murmur-like hash used by the ring: any function;
  - net/rpc: a call is answered or fails; zerolog's `Fatal` ends the process;
    the FNV-128 digest of the ring: any function, where needed without clashes
    (`no_clash`);
  - `bpool.Buffer`: an appendable byte string; `Slice` is taken to hand out a
    copy and to fail past the end.  (The source of bpool is not in the
    repository.  If `Slice` aliases the buffer, decryption in place would
    overwrite the message in memory; the theorems do not exclude that.)
  - the file system: files are byte strings; what was written stays written,
    except in C51; rename is atomic; a directory lists its files by time of
    modification.
* Go's map iteration order, the choice of `select`, slice capacities and the
  clock are explicit arguments quantified over in the theorems.
* Concurrency: only what C29 (`C29_writers`), C36, C41, C47, C52, C53, C80-C87, C90-C93 model as
  interleavings is.  All other models have one caller at a time; background
  tasks are operations of their own that may run between any two calls.

## What is modelled

| repository | model |
|---|---|
| block.go, block_reader.go, block_writer.go, file.go (per segment) | M_IndexBlock, M_BlockRange, M_BlockStore, M_File |
| db_info.go | M_DBInfo |
| entry.go, message/id.go, uid/uid.go | M_Entry, M_MsgId |
| crypto/mac.go (and the server copy) | M_Mac |
| encoding/ (and the server copy) | M_Base32 |
| filter/bloom.go, filter/filter.go | M_Bloom |
| hash/hash.go, hash/consistent.go, modulo.go, rand.go | M_Hash, M_Consistent |
| leasing.go | M_Lease |
| wal/ | M_Wal |
| memdb/block.go, db.go, db_internal.go, batch.go, recovery.go, time_mark.go, tiny_log.go | M_MemDB |
| message/topic.go, trie.go | M_Topic, M_Trie, M_TrieConc |
| query.go, the TTL part of entry.go | M_Query |
| time_window.go, time_window_reader.go, time_window_writer.go | M_WinBlock, M_Window |
| db.go, db_internal.go, db_sync.go, batch.go, recovery.go | M_Get, M_DB |
| expiry_window.go, expireEntries in db_sync.go | M_Expiry |
| file_unix.go, file_windows.go (locks) | M_Lock |
| the locks of db.go, db_internal.go, db_sync.go, trie.go, time_window.go, expiry_window.go, leasing.go, file.go, memdb and wal; sync.RWMutex | M_Locks |
| memdb: Put, write loop, commit loop, BlockIterator with Free, one step per critical section | M_Race |
| trie.go: add by several goroutines, one step per critical section | M_TrieRace |
| the uses of maps between these locks | M_Maps |
| memdb/tiny_log.go as goroutines and channels, with Write of batches and Close | M_Pool |
| file.go (file sets), and the operations on files of each call | M_Fsync |
| Put, Get and Sync of the database at the same time, one step per change that others see | M_Live |
| server: utp/message.go and net/message.go (framing) | M_Wire |
| server: utp/*.go, proto/unitdb.proto, Read of net/message.go | M_Proto |
| server: messageids.go, sub.go, conn.go (subscribe), patricia.go, ringhash.go, cluster_leader.go | M_MsgIds, M_Subs, M_Patricia, M_Ring, M_Leader |
| server: security/key.go, uid/clientid.go, the checks in hdl_conn.go | M_Keys |
| server: cluster.go (calls, rings) and cluster_leader.go with connections and processes | M_Failover |
| server: the requests of cluster.go between nodes, with the cluster branches of conn.go and hdl_conn.go | M_Route |
| server: Subscription and Message of store/store.go, the queries of db/unitdb/adapter.go, over M_DB | M_SubStore |
| server: onRelay of hdl_conn.go after its checks, up to the batch of the connection | M_Relay |
| server: counters of connections and subscriptions of monitor.go, with conn.go | M_Meter |
| database: counters of meter.go, with their use in db.go, db_internal.go, db_sync.go | M_Varz |
| uptime of meter.go, memdb/meter.go, server/internal/monitor.go | M_Uptime |
| server: internal/batch.go | M_Batch |
| server: hdl_conn.go, conn.go, the log and sessions of store/store.go, as one server without cluster | M_Conn |
| server: the loops of a connection and its closing, hdl_conn.go:45-75, 271-312, conn.go:389-447, with those who publish | M_Close |
| server: common/conn.go, common/encode.go | M_Stream |
| server: net/listener/listener.go (not HTTP/2 matching) | M_Sniff |
| server: pkg/stats/buffers.go and the loops of stats.go | M_Stats |
| metrics/sample.go (and the server copy), without HMean and StdDev | M_Sample, M_Percent |

Not modelled: filter.go (its file is never written, so the test always
answers true: M_DB.db_delete), metrics other than samples, meters other than M_Meter, M_Varz and M_Uptime, logging, options parsing,
mutex.go and time_lock.go other than as locks of M_Locks, HTTP/2 matching, gRPC, opening
of the store adapter, start and configuration of cluster.go, monitor,
configuration and generated protobuf code.

Simplifications, each also noted at its definition: one caller at a time in the
store; growing a buffer or file always succeeds; errors of the operating system
other than short reads do not occur; segmented files (file.go) are modelled per
segment; metrics are dropped; a clock is read once per operation.

## Per property

| id | property | status | modelled in; how proved |
|---|---|---|---|
| C01 | Message index record survives the disk format | proved | M_Entry; list algebra, div/mod |
| C02 | Database header survives close and open | partial | M_DBInfo; computation on the header bytes |
| C03 | Index block round trip and lookup by sequence number | proved | M_IndexBlock; induction over slots |
| C04 | Every sequence number owns one index slot position on disk | partial | M_IndexBlock; arithmetic with 32 bit wrap; Flocq for the float division |
| C05 | Window block round trip | proved | M_WinBlock; induction over entries |
| C06 | Topic stored with the first message is recovered as the same topic | partial | M_Topic; induction over parts, relation of parts and depth from the parser |
| C07 | Log file framing | partial | M_Wal; induction over records |
| C08 | Torn log write is all or nothing | proved | M_Wal; all crash points of the system calls |
| C09 | Message identifiers carry what they were built from | proved | M_MsgId; arithmetic |
| C10 | Query time cutoff selects exactly the messages not older than the cutoff | proved | M_MsgId; arithmetic |
| C11 | Hash function is the byte by byte hash for every input length | proved | M_Hash; strong induction by 8 |
| C12 | Bloom filter has no false negatives | proved | M_Bloom; bitwise reasoning, any history of additions |
| C13 | Identifier text encodings are lossless | proved | M_Base32; bit level |
| C14 | Decrypting an encrypted payload gives the payload back | partial | M_Mac over an abstract cipher |
| C15 | Free space is never handed out twice | proved | M_Lease; disjointness invariant over all histories |
| C16 | Merging neighbouring free ranges preserves free space | partial | M_Lease; counting bytes |
| C17 | Free list survives close and open | partial | M_Lease; induction over the list |
| C18 | Index blocks written in ranges cover exactly the changed blocks | proved | M_BlockRange; induction over the sorted list |
| C19 | A stored topic is found again by its exact name | partial | M_Topic, M_Trie; invariant of the tree over all histories |
| C20 | Wildcard topics match what the documentation says | partial | M_Topic, M_Trie; exact characterisation of lookup |
| C21 | Topics are isolated | partial | M_Topic, M_Trie; from C20 and the XOR hash |
| C22 | Expired messages are never returned | partial | M_Window; invariants of both lookups |
| C23 | Get returns at most the requested number of messages | proved | M_DB; any state |
| C24 | Get returns the newest messages first | partial | M_Get, M_Window, M_DB; sortedness of the loop |
| C25 | Rejected puts change nothing | partial | M_DB; case analysis of the whole step, unobservability |
| C26 | An immutable database refuses deletion | proved | M_DB; every state and history |
| C27 | A deleted message stays deleted | partial | M_DB; invariant of C64, and witness runs |
| C28 | Count is the number of stored messages | partial | M_DB; invariants of C62 and C63 joined to a book of slots, commits and restarts; witness run |
| C29 | Sequence numbers are unique | partial | M_DB; invariant over histories with reopening, interleaved counters |
| C30 | Acknowledged messages survive a crash once their log is on disk | partial | M_DB; witness run, replay from C35, recovery after Close from C63 |
| C31 | Messages survive clean close and open | partial | M_DB; C63, and a witness run |
| C32 | Messages stay readable across syncs | partial | M_Window; chain invariant of the window file over all histories |
| C33 | A failed batch leaves no trace | partial | M_DB; induction over the batch function; witness runs |
| C34 | In-memory store returns the last value put for a key | partial | M_MemDB; invariant of blocks, filters and query cache over all histories |
| C35 | In-memory store recovers what the log contains | partial | M_MemDB; replay of any logs of the given form |
| C36 | Only one process opens the database | partial | M_Lock; interleavings of system calls |
| C37 | Consistent hashing places every key on a working bucket and moves only what it must | partial | M_Consistent; invariant of the anchor table |
| C38 | Query limits are normalised | partial | M_Query; case analysis; for the text, induction on the digits (P_QueryText) |
| C39 | Time to live option means what it says | partial | M_Query; case analysis |
| C40 | Security keys round trip and grant only their topic | partial | M_Keys; bit level and case analysis |
| C41 | At most one leader is elected per term | proved | M_Leader; quorum intersection over all schedules |
| C42 | The ring gives every node the same owner for a contract | proved | M_Ring; sortedness, permutation invariance |
| C43 | Wire length prefix round trip | partial | M_Wire; induction over digits and over the stream |
| C44 | Local message identifiers do not repeat while in use | partial | M_MsgIds; invariant |
| C45 | Subscription counting | partial | M_Subs; invariant |
| C46 | Protocol sniffing tree answers prefix and membership queries exactly | proved | M_Patricia; induction over total length |
| C47 | Batched delivery loses nothing | partial | M_Batch; invariant over schedules |
| C48 | Client identifiers round trip | partial | M_Keys; bit level |
| C49 | Index updates keep the records of other messages | proved | M_BlockStore; invariant of index and data files over all histories |
| C50 | Reads of a message return the bytes that were put | partial | M_BlockStore; from the invariant of C49; M_DB for memory; every state |
| C51 | A log that lost its end is not taken for a complete one | partial | M_Wal; cut files |
| C52 | Topics first put at the same time can all be queried | partial | M_TrieConc; interleavings of critical sections |
| C53 | A node restart does not elect two leaders in one term | partial | M_Leader; witness with a restart |
| C54 | Every put within the limits is accepted | partial | M_DB; witness runs |
| C55 | Messages can be deleted inside a batch | partial | M_DB; witness run |
| C56 | A query can be asked again | partial | M_DB; from C62; witness run |
| C57 | An entry can be used again for another topic | partial | M_DB; invariant of C62 (the topic is in the tree), equality of the two puts; witness run |
| C58 | An identifier names one message | partial | M_DB; witness run |
| C59 | Sync reports failure | partial | M_DB; the same book (also over restarts), reading from the files alone; witness run |
| C60 | A message can be read right after Put | partial | M_DB; C61, and witness runs |
| C61 | A session of puts and reads behaves like a list of messages | proved | M_DB; invariant linking memory, time window, tree and message list over any session |
| C62 | Sync does not change what a session sees | partial | M_DB; the same invariant with index, data and window files through syncs |
| C63 | Closing and reopening changes nothing | partial | M_DB; the invariant of C62 carried through Close, Open, log recovery and loading of the tree |
| C64 | A contract sees only its own messages | partial | M_DB; invariant linking what memory holds to the messages put and not deleted, over any history; witness run |
| C65 | Deleting a message leaves the others alone | partial | M_DB; every state; witness run |
| C66 | last selects by age | partial | M_Query, M_MsgId; arithmetic of seconds; over sessions the invariant of C24 with the times of messages and of window entries: an entry is never older than its message; over restarts with the invariant of C63, as entries written by Open carry the time of the Open |
| C67 | Which topics share a number | proved | M_Topic; bit arithmetic on the number |
| C68 | Background expiry takes only expired messages and disturbs no reader | proved | M_Expiry; where the entries of the bucket come from, over any history |
| C69 | Expired messages are eventually taken by the background job | partial | M_Expiry; invariant of the bucket over any order of meetings and jobs |
| C70 | The space of an expired message is released once | partial | M_Expiry, M_Lease; histories of C15; witness run |
| C71 | Size of the in-memory store is the number of keys held | partial | M_MemDB; invariant (the count of a block is the number of its records) over any history |
| C72 | A past block is released with its last key | partial | M_MemDB; the invariant of C71 and one on the log files of a block, over any history |
| C73 | A closed in-memory store refuses every operation | partial | M_MemDB; any state, closed |
| C74 | Aborting a batch of the in-memory store undoes it | partial | M_MemDB; invariant of the store during a batch, over any acts of the batch |
| C75 | A damaged log does not keep the in-memory store from opening | partial | M_Wal, M_MemDB; replay with one damaged log, then the refinement of C35; witness runs |
| C76 | A stream over gRPC packets is a stream of bytes | partial | M_Stream; invariant of the reading place, induction over reads and writes |
| C77 | Looking at the first bytes of a connection takes nothing away | partial | M_Sniff; matchers are arbitrary reading programs, invariant: remembered and coming bytes are all bytes |
| C78 | Every metric is sent once, in packets of bounded size | partial | M_Stats; each line is assigned to a packet with a fate, over any history |
| C79 | Time series answer about the newest times | partial | M_Sample; the ring is a rotation of the newest times; sorting |
| C80 | An announced message can be fetched until its receipt is reported | partial | M_Conn; invariant (the log holds the publication) over any further run |
| C81 | A client is sent only messages for its subscriptions | partial | M_Conn; invariant on log, batches, goroutines and outputs over all runs |
| C82 | A client that comes back is told of all waiting messages | partial | M_Conn; fold over the keys of the log; witness runs |
| C83 | A message whose receipt was reported does not come back | partial | M_Conn; invariant (no entry under the key) over any further run |
| C84 | No packet of a client brings the server down | partial | M_Conn; case analysis of all steps with the invariant of C81 |
| C85 | Sessions are kept apart | partial | M_Conn; the invariant of C81 with owners of log entries |
| C86 | A publication reaches all subscribers | partial | M_Conn; induction over the subscribers, connections only gain; for all interleavings an invariant over any run: the subscriber has the message or a goroutine still has it to send; witness run with mode 3 |
| C87 | Publications of one client arrive in order | partial | M_Conn; the invariant of C86 for what is sent behind a given packet; witness run |
| C88 | Packets come back from the wire with every field | partial | M_Proto; decoding inverts encoding, field by field, for any decoder state |
| C89 | Broken and hostile input never makes up packets and never stops the server | partial | M_Proto; case analysis of the place of the break; bound on what a short header can say; witness appended to any stream |
| C90 | The nodes of a cluster agree who owns a contract | partial | M_Failover; invariant on rings and pings of one leader; witness run with an invariant kept by every continuation |
| C91 | A node keeps running when another one fails | partial | M_Failover; invariant over all runs; induction over the nodes for the witness |
| C92 | Publications reach subscribers on every node | partial | M_Route; projection of a run to one node (invariant: nothing is proxied); induction over the subscribers of both nodes; witness runs |
| C93 | A request runs as the client that sent it, on every node | partial | M_Route; invariant (numbers of nodes, owners of goroutines and connections) over all runs; witness run |
| C94 | Publications go only to subscribers of the same contract | partial | M_SubStore; a run of the store is one of the database (C64), messages under the contract of subscriptions are subscriptions; witness runs |
| C95 | Unsubscribing ends one subscription and no other | partial | M_SubStore; corollary of C94 over the rest of the run; witness runs |
| C96 | Publications reach all subscribers | partial | M_SubStore; NewID and Put are one Put without id, then C62; pigeonhole over C23 for the limit; witness runs |
| C97 | A subscription lasts until its own connection ends it | partial | M_Conn; invariant: identifiers of stored subscriptions and counters are distinct numbers, each counter belongs to one connection; what other requests do is local to their connection |
| C98 | When a connection ends, none of its subscriptions remain | partial | M_Conn; invariant: each stored subscription of the connection has a counter of positive value with its identifier; witness runs |
| C99 | Concurrent calls of the in-memory store all return | partial | M_Locks; ranking of the locks kept by every call (compositional), so that a waiting goroutine always leads to one that waits higher; weight of a state for the length of runs; witness schedules |
| C100 | Concurrent calls of the database all return | partial | M_Locks; the ranking of C99, with the locks left by Close at the bottom; witness schedule |
| C101 | An acknowledged Put is logged although other goroutines run | partial | M_Race; one invariant over all runs (blocks in the map have their own buffers, offsets and logs agree, the place of every timely record); witness runs, the second with an invariant for what comes after |
| C102 | Topics added at the same time are all found | partial | M_TrieRace; invariant over all runs: the place of every call in the trie and every topic of the summary is reached from the root, unless a node above was replaced; witness run, with an invariant for what comes after |
| C103 | A message keeps its payload after it was read | partial | M_DB over M_MemDB; the sessions of C62 for the part that holds; witness runs of the whole database |
| C104 | A Get at the same time as a Sync gives every returned message once | partial | M_Live; one invariant over all timely runs: the blocks of each topic, in the file or about to be written, form a chain with exactly the stored messages; memory, window and index agree with where each Put and the Sync are; witness runs, with 335 entries in a block |
| C105 | No map is written while another goroutine uses it | partial | M_Maps (M_Locks with the uses of maps); each map has locks: every reader holds one of them, every writer all of them for writing, proved of each list of operations; locks exclude each other over all runs. C105_locks: the locks are exactly those of M_Locks. |
| C106 | What Sync has written survives a power failure | partial | M_Fsync; no call flushes (case analysis), so any sublist of the operations may be what is kept; for a file set with a map: the kept operations have the same effect on a flushed file; witness run |
| C107 | FileSize is the size of the files | partial | M_Fsync; induction over the files; witness run |
| C108 | A write of a batch returns | partial | M_Pool; invariant over all runs (each log is in one place); infinite fair runs: a measure of the place of the log falls whenever the goroutine in charge has its turn; witness run for every capacity, with an invariant for what comes after |
| C109 | Close ends the goroutines of the log pool and returns | partial | M_Pool; the same, through the stages of Close; witness runs |
| C110 | Nothing is left in a cluster of a connection that ended | partial | M_Route; invariant over all runs of a cluster: while the connection is open, who has subscriptions of its number is its own node and the owner, through the proxied connection; after the owner was told, none, and nobody can add one; frames for the steps of others; witness run with a restart |
| C111 | The log pool writes each log once and in order | proved | M_Pool; the line of written and queued logs changes only by one log at its end or one dropped log; each log is in one place (C108) |
| C112 | A connection whose client has left is closed | partial | M_Close; invariant over all runs, rank of the phase of closing; a stuck state closed under all steps |
| C113 | Who publishes to a connection that ends is neither blocked nor crashes the server | partial | M_Close; the invariant of C112; the stuck state keeps all who wait; witness run |
| C114 | A relay brings the messages of its span | partial | M_Relay over M_SubStore and M_DB; simulation by a session of C66, where no subscription counts as a message |
| C115 | The server counts its connections and subscriptions | partial | M_Meter beside M_Conn; invariant that each entry of an open connection has exactly one stored subscription, over the invariant of C97; witness runs |
| C116 | The statistics of a database tell what was done | partial | M_Varz beside M_DB; every state and run for the counters of calls; the book of C28 and the Sync lemma of C62 for those of Sync; witness runs |
| C117 | Messages of a committed batch can be read | partial | M_DB; the invariant of C62 over slots of one nanosecond, so that the block of a batch is the current slot; every step does the same whatever the current slot is (P_Batches); C117_handed for every state |
| C118 | What a batch has written outlives the process | partial | M_MemDB and M_Wal; the block of the batch holds exactly the puts not yet written, so each Write appends one log; C35 for the Open after the crash; the released times only shrink by frees |
| C119 | A crash loses only the last messages since the last Open, and none that were in the log | partial | M_DB; the invariant of C63 with the logs made explicit; each message is stored, in a log, or in memory under the time of a queued or the current log; Open of the files as they are, with the sequence of the info file (P_Restart5 reopen_files, P_Crash) |
| C120 | The uptime shown is the time the database or server has been up | proved | M_Uptime; induction on the digits of a number, then the divisions one by one (P_Uptime) |
| C121 | The percentiles shown are times of events of that rank, and all numbers shown are in order | proved | M_Percent over M_Sample; the positions for each of the 51 possible numbers of times are computed with SpecFloat, everything else is proved for all times from the order of the snapshot (C79) |
| C122 | Free space is used again | partial | M_Lease, M_Consistent; the binary search gives the first that fits in an ordered list; insertion sort; two lists computed with the hash of the code (P_Reuse) |
| C123 | Options in a topic do not change where a message goes | proved | M_Topic; the first field of the text up to the mark (P_Where) |

## Findings

Every `_refuted` theorem is a finding; the MANIFEST note has the cause.  Further
observations made while modelling, not all with a theorem of their own:

Index, data and free list
* `newBlockWriter` multiplies block numbers in int32: wrong at 2^19 blocks (C04).
* `del` sets the message offset to -1 before it calls `freeBlock(-1, size)`; for
  a sequence that is not found it frees (0, 9).
* `defrag` leaves one of two touching ranges in the list (C16): the same bytes
  are handed out twice.
* `allocate` looks in the shard of the size, `freeBlock` files under the shard of
  the offset, and neither keeps the list in order: most free space is never used
  again (C122).
* `readMessage` adds sizes in uint16.
* A topic text that begins with the question mark takes its options for the topic:
  "?b" is the topic "b" (C123, example).
* `sync` of the file set never flushes a file, `FileSize` is always 0 (C106, C107).
* An aborted sync frees the leases of data already referenced.

Window file
* The cutoff of a block that was loaded full is not written back.
* `del` shifts entries only up to number 254; rollback never rewrites the file.
* The scan at Open gives the oldest block of a topic, and later entries are
  appended there: topics of more than 335 messages lose some (C31).
* Every new window writer leaves a hole of one block.
* The topic that owns block 0 loses messages, since offset 0 means "none" (C32).
* `?last=` with a text that is no duration hides all messages older than the
  running second instead of none (C66).
* Expired entries count against the limit of a Get and make it restart or stop (C22).

Streams and metrics of the server
* A read into an empty buffer drops a gRPC packet (C76).
* An error that comes with sniffed bytes is reported before they are read (C77).
* A metrics packet that the socket refuses is neither sent again nor counted (C78).
* A time series without times panics when asked, and a live series answers from
  an unsorted ring (C79).

Connections and sessions of the server
* Waiting messages are stored under session and publisher's identifier: two
  publishers overwrite each other, and identifier 0 is never found (C80).
* A fetched packet carries all its messages, also those on topics the reader may
  not read, and the security keys in their topic texts (C81).
* The client says itself whether its requests are checked: `insecure` in CONNECT
  switches the check of security keys off.
* A session is lost at the second reconnect; bit 4 of its number deletes its
  messages; keys are sign-extended in one place and not in the other (C82).
* A publication with a delivery mode above 2 is accepted, stored and
  acknowledged, and sent to no subscriber (C86_refuted).
* A client that sends PINGREQ, DISCONNECT, PINGREQ at once can leave its
  connection for ever: the write loop returns when the closing begins, the
  read loop waits for room in the send channel, the closing waits for the
  read loop.  Its subscriptions stay, and every later reliable publication
  that reaches it waits for ever, with all subscribers behind it (C112,
  C113).
* While a connection is closed, from the return of its write loop until it
  leaves the cache, the send channel takes one message; all other reliable
  publications wait for it, and panic when the closing closes the channel.
  DISCONNECT, two publications, and a socket closed after them stop the
  server (C113_crash_refuted).
* The session key is an int32 chosen by the client and not bound to it (C85).
* A packet before CONNECT, or a disconnect during a delivery, stops the server (C84).
* Nine bytes with a negative packet length stop the server, no CONNECT needed (C89).
* The acknowledgement of a ping is read as a ping request (C88).
* Resuming an identifier that NextID gave out last makes the next NextID wait
  forever, with the lock held (C44).
* After a restart the stored subscriptions name connection numbers of the old
  process; a new connection with such a number gets their messages (C94).
* Subscriptions are messages of the contract xor a constant: whoever publishes
  under that contract can subscribe any connection, or stop the server (C94).
* One subscriber that leaves takes the others of the topic along; after a sync
  it does not leave at all (C95).
* A connection that connects again under another contract leaves its
  subscriptions behind when it breaks (C98).
* At most 1000 subscribers are reached by a publication; "?last=" in its topic
  leaves out more, and "?ttl=" in the topic of a subscription ends it (C96).
* A relay for "1d" is one for all times, since that is no duration; a relay
  for a long span sends 1000 messages and says nothing of the others (C114).
* The number of subscriptions at /varz falls below zero: a subscription that the
  store did not take is not counted, yet is taken off the counter when the
  connection ends (C115). After a restart, or a second CONNECT under another
  contract, it is too low.

Cluster
* A call to a node that is down ends the calling process (C91).
* When a node stops, the other nodes keep the subscriptions of its connections
  for ever; a new connection of that number gets their messages (C110).
* A new leader sends its list of active nodes, not the list its ring is made
  from, so a node that comes back never agrees with it (C90).
* A first subscription at a node that does not own the contract is not
  forwarded, only repeated ones are; messages published elsewhere do not arrive (C92).
* Publications for proxied connections go to a channel that `rpcWriteLoop` does
  not read.  A NOTIFY gets through, but the RECEIVE that answers it finds nothing
  in the log of its node and closes the connection (C92).
* A packet of k messages is forwarded once per message, with all of them (C92).
* The node that owns a contract is not told that a client connected without the need of
  keys; it refuses what that client sends through another node (C92).
* `Master` takes over a local connection with the same number (C93).
* A forwarded subscription for collected messages stops the owner, since proxied
  connections have no batch manager (C84).

Background expiry
* The job looks only at part 0 of the 100000 parts of the bucket (C69).
* A Get puts an expired entry into the bucket each time it meets it, and each
  later job releases its space and lowers Count again (C70).
* The job stops at the first entry it cannot read, for instance a deleted one;
  the other entries it has taken out of the bucket are then lost.
* Neither the index nor the window block of an expired message is cleared.

Sync, recovery, reopening
* Deleting a synced message changes neither index nor window; deleting an
  unsynced one leaves its window entry, so Get of the topic fails (C27).
* Deletion of a synced message puts a block at offset -1 on the free list.  When
  a later Sync takes part of it, the rest lies over live messages, which the
  next message then overwrites (C65).  A reader of the overwritten message is
  then shown the payload of another contract (C64).
* Deleting the first message of a topic before it is synced leaves the topic out
  of the tree after a reopen, and `loadTrie` stops at the first entry it cannot read.
* The counters of Varz: messages put by a batch are not counted, payloads that
  come with an error neither, deletions of unknown identifiers are; Aborts is
  never raised, and Syncs that are undone leave InMsgs as it is but lower Count
  (C116).
* The times of Varz (HMean to StdDev) of the database and of the in-memory store are those of one
  empty function, measured when the meter is made: nothing else is ever timed
  (meter.go:64, memdb/meter.go:52).
* Count changes at sync only and is decremented for unknown identifiers (C28).
* Recovery is skipped while the info file has sequence 0 (C30); the sequence is
  never raised to the recovered ones, so numbers repeat after a crash (C29): the
  recovered message is lost and the new one is read twice (C119).
* After a crash before the first sync, every later sync aborts and Count becomes
  2^64-2 (C59).  Sync drops every error.
* `Open` that fails keeps the lock.
* Reopening within the same second as the last write: recovery frees the
  current block and later puts are refused until the next tick (C63).

Puts and batches
* Encryption is on whatever the option says (C02, C54); one byte payloads panic.
* Every `Batch.Delete` panics (C55).  Abort of a managed batch panics (C33).
* A batch function that calls Write and then fails is not undone: its messages
  are in the log and come back at the next Open (C33_written_refuted).
* A committed batch is in the log, yet gone after a crash if the database was
  never synced (C118_refuted).
* A Put after a Batch in the same second is not readable (C60).
* Topics of two contracts can share a number; the message of the second is
  accepted and never found (C60).  It is not shown to the first (C64).
* Two puts with one identifier give the value twice (C58).  A reused Entry keeps
  its topic hash (C57), a reused Query its entries (C56).  A reused Entry also
  keeps the expiry time worked out from the ttl of its first use.
* Topics of about 13100 parts panic; 256 levels wrap the depth (C06, C54).

In-memory store
* A value kept by the query manager is returned after a newer put; batch blocks
  hide later puts; freed buffers are read again (C34).  In the database this makes
  a Get of one topic give the message of another, or panic, after a Sync (C103).
* Delete removes only the newest version; tombstones are lost or bring keys
  back; a delete before the log is written makes recovery panic when the value
  is shorter than 8 bytes (C35).
* Recovery cuts times by the log interval, writing by the block duration.
* Size counts overwritten keys twice (C71), and a block with one is never
  released by deletions (C72).  A mark counts at most one log.
* NewBatch on a closed store panics (C73).
* A batch aborted before Write leaves its entries (C74); Commit ignores write errors.
* One damaged log hides the logs after it, or makes Open panic, or comes back
  with zeros in a value (C75).
* Two logs with the same nanosecond id would overwrite each other's file.

Locks
* `Keys` and `Size` of memdb can deadlock with a Put (C99).
* `Sync` after `Close` never returns (C100).
* Get writes the maps of the query manager of memdb without any lock, so two Gets at the
  same time can end the process with "concurrent map writes" (C105).
* Put reads the summary of the trie (trie.go:122) without the lock under which another Put
  writes it: two Puts of new topics can end the process (C105).
* Close merges the free blocks (leasing.go:125-158) without their locks, while a Delete or
  an expiry that began before can use them (C105).
* A Put that is slower than the time of its block is not logged, or is lost although
  it returned no error (C101).
* Two new topics with a common prefix, added at the same time, can lose one of them
  until the database is opened again (C102).
* A Get during a Sync can give a message twice, miss it, or miss everything its
  topic has on disk; a Sync that fails after it has changed offsets makes topics
  lose their messages; a time that ends at the start of a Sync leaves messages
  twice in their topics (C104).

Consistent hash
* Tables of 100000 blocks use only the blocks below 65536 (C37).

Server
* Keys contain no secret; key generation is not restricted to primary clients;
  a topic "key/a/b" ignores its third part; publishing is checked with the right
  to read (C40).
* A four character prefix of a client identifier is enough once it is cached (C48).
* The publish loop sleeps two seconds per batch, which makes the duplicate
  delivery of C47 likely.
* `trie.go:122` reads the summary map without the lock (C52).

## Print Assumptions per theorem

* T_Abort.v: Closed under the global context: C74_partial, C74_refuted, C75_header_partial, C75_stop_partial, C75_refuted, C75_panic_refuted, C75_value_refuted.
* T_Again.v: Closed under the global context: C33_unwritten_partial, C33_left_partial, C33_written_refuted, C56_fresh_partial, C57_same_topic_partial.
* T_Basic.v: Closed under the global context: C11_hash_fold, C11_hash_salt, C12_no_false_negative, C13_base8, C13_base32, C14_refuted, C14_roundtrip_partial.
* T_Batch.v: Closed under the global context: C47_order_partial, C47_all_partial, C47_batch_size, C47_twice_refuted, C47_full_refuted, C47_stop_refuted, C47_panic_refuted.
* T_Batches.v: Closed under the global context: C117_session_partial, C117_synced_partial, C117_handed.
* T_BlockStore.v: Closed under the global context: C18_ranges, C18_written, C49_frame, C49_content, C49_append, C50_file_partial.
* T_Close.v: Closed under the global context: C112_partial, C112_stuck_partial, C112_ended, C112_refuted, C112_open_refuted, C113_partial, C113_after_partial, C113_panic_partial, C113_refuted, C113_crash_refuted.
* T_Codec.v: Closed under the global context: C01_entry_roundtrip, C01_entry_injective, C01_entry_onto, C02_refuted, C02_header_partial, C03_block_roundtrip, C03_lookup, C03_lookup_absent, C04_refuted, C04_position_partial, C04_same_block, C05_window_roundtrip, C09_id_fields, C09_id_distinct, C10_cutoff, C10_cutoff_of_new_id.
  C04_float_division: ClassicalDedekindReals.sig_not_dec, ClassicalDedekindReals.sig_forall_dec, functional_extensionality_dep, Classical_Prop.classic.
* T_Conn.v: Closed under the global context: C80_partial, C80_overwritten_refuted, C80_zero_refuted, C81_partial, C81_refuted, C82_partial, C82_bit_refuted, C82_second_refuted, C82_identifier_refuted, C83_partial, C83_refuted, C84_partial, C84_first_refuted, C84_closed_refuted, C85_partial, C85_key_refuted, C85_second_refuted, C86_partial, C87_refuted.
* T_Consistent.v: Closed under the global context: C37_working_partial, C37_remove_partial, C37_add_partial, C37_undo_partial, C37_full, C37_grow_refuted, C37_last_refuted, C37_previous_refuted.
* T_Count.v: Closed under the global context: C28_session_partial, C59_files_partial.
* T_CountR.v: Closed under the global context: C28_restart_partial, C59_restart_partial.
* T_Crash.v: Closed under the global context: C119_crash_partial, C119_first_refuted, C119_after_refuted.
* T_DB.v: Closed under the global context: C23_limit, C23_given, C24_order, C24_found_partial, C24_panic_refuted, C25_put, C25_unseen, C25_batch, C25_closed_refuted, C26_delete, C26_batch, C26_history, C27_synced_refuted, C27_others_refuted, C28_refuted, C29_history_partial, C29_writers, C29_refuted, C30_refuted, C32_first_refuted, C33_refuted, C54_short_refuted, C54_encrypted, C54_deep_refuted, C55_refuted, C56_refuted, C57_refuted, C58_refuted, C59_refuted, C60_refuted.
* T_Deliver.v: Closed under the global context: C86_any_partial, C86_refuted, C87_partial.
* T_Durable.v: Closed under the global context: C118_log, C118_crash_partial, C118_synced, C118_refuted.
* T_Expiry.v: Closed under the global context: C68_expired, C68_answers, C69_taken_partial, C69_refuted, C70_once_partial, C70_refuted.
* T_Failover.v: Closed under the global context: C41_failover, C90_partial, C90_pings_partial, C90_refuted, C91_partial, C91_leader_refuted, C91_refuted.
* T_Fsync.v: Closed under the global context: C106_partial, C106_file, C106_refuted, C106_any_refuted, C106_log_refuted, C107_partial, C107_refuted.
* T_Gone.v: Closed under the global context: C110_partial, C110_refuted.
* T_InMem.v: Closed under the global context: C50_memory_partial, C50_topic_partial.
* T_Keys.v: Closed under the global context: C40_keygen, C40_subscribe, C40_scope_partial, C40_publish_partial, C40_publish_scope_partial, C40_length, C40_write_refuted, C40_collision_refuted, C40_short_refuted, C40_panic_refuted, C48_fields, C48_new, C48_roundtrip, C48_secondary, C48_primary, C48_connect_partial, C48_refused_partial, C48_cache_refuted, C48_forged_refuted.
* T_Lease.v: Closed under the global context: C15_disjoint, C15_free_exact, C15_allocate_exact, C16_refuted, C16_bytes_partial, C16_no_touch_partial, C17_refuted, C17_roundtrip_partial.
* T_Live.v: Closed under the global context: C104_partial, C104_only_partial, C104_twice_refuted, C104_miss_refuted, C104_hidden_refuted, C104_stays_refuted, C104_abort_refuted.
* T_Lock.v: Closed under the global context: C36_refuted, C36_unlock_refuted, C36_open_partial, C36_calls_partial.
* T_Locks.v: Closed under the global context: C99_partial, C99_size_refuted, C99_keys_refuted, C100_partial, C100_close_partial, C100_close_refuted.
* T_Maps.v: Closed under the global context: C105_locks, C105_partial, C105_query_partial, C105_lease_partial, C105_summary_partial, C105_get_refuted, C105_again_refuted, C105_put_refuted, C105_close_refuted.
* T_MemDB.v: Closed under the global context: C34_lookup, C34_get_partial, C34_refuted, C34_batch_refuted, C34_reuse_refuted, C35_partial, C35_panic_refuted, C35_refuted, C35_back_refuted.
* T_Meter.v: Closed under the global context: C115_conns_partial, C115_partial, C115_refuted, C115_contract_refuted, C115_restart_refuted.
* T_Number.v: Closed under the global context: C66_topic_partial, C66_query_partial, C66_refuted, C67_number.
* T_Only.v: Closed under the global context: C64_only_partial, C27_deleted_partial, C64_refuted, C60_clash_refuted, C65_files_partial, C65_refuted.
* T_Packet.v: Closed under the global context: C88_partial, C88_rest_partial, C88_strings_partial, C88_connack, C88_ping_refuted, C88_after_ping_refuted, C88_disconnect_refuted, C88_string_refuted, C89_partial, C89_short_partial, C89_refuted, C43_header, C81_wired_partial, C84_wired_partial, C85_wired_partial.
* T_Percent.v: Closed under the global context: C121_percentiles, C121_ends, C121_order, C121_empty_refuted.
* T_Pool.v: Closed under the global context: C108_partial, C108_else_partial, C108_refuted, C109_partial, C109_else_partial, C109_after_refuted, C109_refuted.
* T_PoolOrder.v: Closed under the global context: C111_order, C111_returned, C111_closed, C111_kept.
* T_Query.v: Closed under the global context: C38_limit_partial, C38_last_max_partial, C38_last_number, C38_text, C38_options, C38_among, C38_refuted, C39_topic_partial, C39_text_partial, C39_entry_partial, C39_topic_refuted, C39_entry_refuted.
* T_Race.v: Closed under the global context: C101_partial, C101_refuted, C101_lost_refuted.
* T_Restart.v: Closed under the global context: C63_restart_partial, C63_slot_refuted.
* T_Reuse.v: Closed under the global context: C122_found_partial, C122_defrag_partial, C122_refuted.
* T_Route.v: Closed under the global context: C92_owner_partial, C92_forward_partial, C92_refuted, C92_reliable_refuted, C92_twice_refuted, C92_insecure_refuted, C93_partial, C93_refuted, C84_cluster_refuted.
* T_Server.v: Closed under the global context: C41_elected_once, C41_leaders_agree, C53_refuted, C42_owner, C42_same_owner, C42_member, C42_removal, C42_points, C43_length_partial, C43_stream, C43_refuted, C44_fresh_partial, C44_wire_partial, C44_type, C44_resumed, C44_hang_refuted, C44_wire_refuted, C44_reset_refuted, C45_first, C45_last, C45_store_partial, C45_nokey_refuted, C45_failed_refuted, C46_prefix, C46_exact.
* T_Session.v: Closed under the global context: C61_session, C62_session_partial, C103_refuted, C103_panic_refuted.
* T_Since.v: Closed under the global context: C66_session_partial, C114_partial, C114_refuted, C114_limit_refuted.
* T_SinceR.v: Closed under the global context: C66_restart_partial.
* T_Size.v: Closed under the global context: C71_partial, C71_refuted, C72_partial, C72_refuted, C73_partial, C73_refuted.
* T_Streams.v: Closed under the global context: C76_stream_partial, C76_answer, C76_refuted, C76_chunk_refuted, C77_conn_partial, C77_routed_partial, C77_refuted, C78_packets_partial, C78_refuted, C79_snapshot_partial, C79_sums_partial, C79_empty_refuted, C79_live_refuted.
* T_SubLife.v: Closed under the global context: C97_partial, C98_partial, C98_contract_refuted, C98_restart_refuted.
* T_SubStore.v: Closed under the global context: C94_partial, C94_refuted, C94_dies_refuted, C94_restart_refuted, C95_partial, C95_refuted, C95_others_refuted, C96_found_partial, C96_limit_refuted, C96_sync_refuted, C96_options_refuted.
* T_Topic.v: Closed under the global context: C06_roundtrip_partial, C06_refuted, C06_cut, C19_found_partial, C19_offset, C19_refuted, C20_lookup_partial, C20_refuted, C21_isolation_partial, C21_refuted, C21_contract_refuted, C52_offset_partial, C52_refuted.
* T_TrieRace.v: Closed under the global context: C102_partial, C102_serial_partial, C102_refuted.
* T_Uptime.v: Closed under the global context: C120_uptime, C120_tells.
* T_Varz.v: Closed under the global context: C116_calls_partial, C116_synced_partial, C116_block_partial, C116_batch_refuted, C116_error_refuted, C116_deleted_refuted, C116_aborted_refuted.
* T_Wal.v: Closed under the global context: C07_refuted, C07_framing_partial, C08_all_or_nothing, C08_files, C51_refuted, C51_prefix_partial, C51_header_partial.
* T_Where.v: Closed under the global context: C123_parts, C123_hash.
* T_Window.v: Closed under the global context: C22_lookup, C32_window_partial, C32_cutoff_partial, C32_progress, C32_refuted, C31_refuted, C22_hidden_refuted, C22_repeated_refuted, C24_window_partial, C24_lists_refuted.
