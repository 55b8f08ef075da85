import json,re,subprocess,os
head = r'''# Design of the formal model of unitdb

## Approach

The Go sources in `/repo` are read as text and transcribed, function by
function, into small total Gallina functions (`rocq/theories/M_*.v`).  Each
definition cites the file and lines it models and says where it simplifies.
Specifications that do not use model helpers live in `S_*.v`.  Proofs are in
`P_*.v`.  The property theorems are in `T_*.v`: those files contain only the
theorem statements, closed by `exact lemma`, followed by `Print Assumptions`,
and the non-vacuity `Example`s.

Numbers: Go integers are `N`/`Z`.  Where wrap-around matters the wrap is
written into the model (`mod 2^k`).  Byte strings are `list N`.  Go panics and
errors are values of result types; nothing is given a default in place of a
panic.

A property the code violates gets a theorem `..._refuted` exhibiting a concrete
execution of the faithful model, together with the largest part of the property
that was proved, named `..._partial`.  In MANIFEST.json such a property is
"partial"; its note says what fails and why.  Several refuted theorems may
belong to one property when there are several independent causes.

## Trusted base

* The Coq 8.16.1 kernel (`coqc`, `coqchk`) and its standard library.
* What `Print Assumptions` lists.  Every theorem named in MANIFEST.json is
  "Closed under the global context", except `C04_float_division`, which uses
  Flocq's binary64 and hence the axioms of the standard library's real numbers:
  `ClassicalDedekindReals.sig_not_dec`, `ClassicalDedekindReals.sig_forall_dec`,
  `FunctionalExtensionality.functional_extensionality_dep`,
  `Classical_Prop.classic`.  The list per theorem is at the end of this file.
* The reading of the Go source: the model is hand written.  The mutation runs
  (`seeded/LOG.jsonl`) test that the theorems notice realistic changes of the
  model; nothing but reading ties the model to the Go text.
* The code outside the repository, which enters as arguments with the
  properties the theorem statements name:
  - snappy: decoding gives back what was encoded (`so_unsnap`), results are
    bytes and at most 2^31 long;
  - chacha20poly1305: `aead_ok` (opening a sealed text with the same nonce gives
    it back and its length is 16 more), `so_seal`/`seal_bytes` (the result is
    bytes).  No secrecy or authenticity is assumed, so nothing is proved about
    them;
  - protobuf: the wire format of golang/protobuf v1.5.2 is written out in
    M_Proto (numbers, strings, nested messages, unknown fields, errors); the
    limit of 10000 nested groups is not; C43 has an abstract codec of headers;
  - `sort.Sort`/`sort.Slice`: the result is a sorted permutation;
  - `sync.RWMutex`: many readers or one writer, a waiting writer keeps out new
    readers (M_Locks.thread_step);
  - goroutines (M_Race, M_TrieRace): their critical sections happen one after the
    other, in any order; accesses without a lock are taken to be atomic;
  - `time.ParseDuration`: a function from strings to durations;
  - the FNV/murmur-like hash used by the ring: any function;
  - net/rpc: a call is answered or fails; zerolog's `Fatal` ends the process;
    the FNV-128 digest of the ring: any function, where needed without clashes
    (`no_clash`);
  - `bpool.Buffer`: an appendable byte string; `Slice` is taken to hand out a
    copy and to fail past the end.  (The source of bpool is not in the
    repository.  If `Slice` aliases the buffer, decryption in place would
    overwrite the message in memory; the theorems do not exclude that.)
  - the file system: files are byte strings; what was written stays written,
    except in C51; rename is atomic; a directory lists its files by time of
    modification.
* Go's map iteration order, the choice of `select`, slice capacities and the
  clock are explicit arguments quantified over in the theorems.
* Concurrency: only what C29 (`C29_writers`), C36, C41, C47, C52, C53, C80-C87, C90-C93 model as
  interleavings is.  All other models have one caller at a time; background
  tasks are operations of their own that may run between any two calls.

## What is modelled

| repository | model |
|---|---|
| block.go, block_reader.go, block_writer.go, file.go (per segment) | M_IndexBlock, M_BlockRange, M_BlockStore, M_File |
| db_info.go | M_DBInfo |
| entry.go, message/id.go, uid/uid.go | M_Entry, M_MsgId |
| crypto/mac.go (and the server copy) | M_Mac |
| encoding/ (and the server copy) | M_Base32 |
| filter/bloom.go, filter/filter.go | M_Bloom |
| hash/hash.go, hash/consistent.go, modulo.go, rand.go | M_Hash, M_Consistent |
| leasing.go | M_Lease |
| wal/ | M_Wal |
| memdb/block.go, db.go, db_internal.go, batch.go, recovery.go, time_mark.go, tiny_log.go | M_MemDB |
| message/topic.go, trie.go | M_Topic, M_Trie, M_TrieConc |
| query.go, the TTL part of entry.go | M_Query |
| time_window.go, time_window_reader.go, time_window_writer.go | M_WinBlock, M_Window |
| db.go, db_internal.go, db_sync.go, batch.go, recovery.go | M_Get, M_DB |
| expiry_window.go, expireEntries in db_sync.go | M_Expiry |
| file_unix.go, file_windows.go (locks) | M_Lock |
| the locks of db.go, db_internal.go, db_sync.go, trie.go, time_window.go, expiry_window.go, leasing.go, file.go, memdb and wal; sync.RWMutex | M_Locks |
| memdb: Put, write loop, commit loop, BlockIterator with Free, one step per critical section | M_Race |
| trie.go: add by several goroutines, one step per critical section | M_TrieRace |
| the uses of maps between these locks | M_Maps |
| memdb/tiny_log.go as goroutines and channels, with Write of batches and Close | M_Pool |
| file.go (file sets), and the operations on files of each call | M_Fsync |
| Put, Get and Sync of the database at the same time, one step per change that others see | M_Live |
| server: utp/message.go and net/message.go (framing) | M_Wire |
| server: utp/*.go, proto/unitdb.proto, Read of net/message.go | M_Proto |
| server: messageids.go, sub.go, conn.go (subscribe), patricia.go, ringhash.go, cluster_leader.go | M_MsgIds, M_Subs, M_Patricia, M_Ring, M_Leader |
| server: security/key.go, uid/clientid.go, the checks in hdl_conn.go | M_Keys |
| server: cluster.go (calls, rings) and cluster_leader.go with connections and processes | M_Failover |
| server: the requests of cluster.go between nodes, with the cluster branches of conn.go and hdl_conn.go | M_Route |
| server: Subscription and Message of store/store.go, the queries of db/unitdb/adapter.go, over M_DB | M_SubStore |
| server: onRelay of hdl_conn.go after its checks, up to the batch of the connection | M_Relay |
| server: counters of connections and subscriptions of monitor.go, with conn.go | M_Meter |
| database: counters of meter.go, with their use in db.go, db_internal.go, db_sync.go | M_Varz |
| uptime of meter.go, memdb/meter.go, server/internal/monitor.go | M_Uptime |
| server: internal/batch.go | M_Batch |
| server: hdl_conn.go, conn.go, the log and sessions of store/store.go, as one server without cluster | M_Conn |
| server: the loops of a connection and its closing, hdl_conn.go:45-75, 271-312, conn.go:389-447, with those who publish | M_Close |
| server: common/conn.go, common/encode.go | M_Stream |
| server: net/listener/listener.go (not HTTP/2 matching) | M_Sniff |
| server: pkg/stats/buffers.go and the loops of stats.go | M_Stats |
| metrics/sample.go (and the server copy), without HMean and StdDev | M_Sample, M_Percent |

Not modelled: filter.go (its file is never written, so the test always
answers true: M_DB.db_delete), metrics other than samples, meters other than M_Meter, M_Varz and M_Uptime, logging, options parsing,
mutex.go and time_lock.go other than as locks of M_Locks, HTTP/2 matching, gRPC, opening
of the store adapter, start and configuration of cluster.go, monitor,
configuration and generated protobuf code.

Simplifications, each also noted at its definition: one caller at a time in the
store; growing a buffer or file always succeeds; errors of the operating system
other than short reads do not occur; segmented files (file.go) are modelled per
segment; metrics are dropped; a clock is read once per operation.
'''
find = r'''
## Findings

Every `_refuted` theorem is a finding; the MANIFEST note has the cause.  Further
observations made while modelling, not all with a theorem of their own:

Index, data and free list
* `newBlockWriter` multiplies block numbers in int32: wrong at 2^19 blocks (C04).
* `del` sets the message offset to -1 before it calls `freeBlock(-1, size)`; for
  a sequence that is not found it frees (0, 9).
* `defrag` leaves one of two touching ranges in the list (C16): the same bytes
  are handed out twice.
* `allocate` looks in the shard of the size, `freeBlock` files under the shard of
  the offset, and neither keeps the list in order: most free space is never used
  again (C122).
* `readMessage` adds sizes in uint16.
* A topic text that begins with the question mark takes its options for the topic:
  "?b" is the topic "b" (C123, example).
* `sync` of the file set never flushes a file, `FileSize` is always 0 (C106, C107).
* An aborted sync frees the leases of data already referenced.

Window file
* The cutoff of a block that was loaded full is not written back.
* `del` shifts entries only up to number 254; rollback never rewrites the file.
* The scan at Open gives the oldest block of a topic, and later entries are
  appended there: topics of more than 335 messages lose some (C31).
* Every new window writer leaves a hole of one block.
* The topic that owns block 0 loses messages, since offset 0 means "none" (C32).
* `?last=` with a text that is no duration hides all messages older than the
  running second instead of none (C66).
* Expired entries count against the limit of a Get and make it restart or stop (C22).

Streams and metrics of the server
* A read into an empty buffer drops a gRPC packet (C76).
* An error that comes with sniffed bytes is reported before they are read (C77).
* A metrics packet that the socket refuses is neither sent again nor counted (C78).
* A time series without times panics when asked, and a live series answers from
  an unsorted ring (C79).

Connections and sessions of the server
* Waiting messages are stored under session and publisher's identifier: two
  publishers overwrite each other, and identifier 0 is never found (C80).
* A fetched packet carries all its messages, also those on topics the reader may
  not read, and the security keys in their topic texts (C81).
* The client says itself whether its requests are checked: `insecure` in CONNECT
  switches the check of security keys off.
* A session is lost at the second reconnect; bit 4 of its number deletes its
  messages; keys are sign-extended in one place and not in the other (C82).
* A publication with a delivery mode above 2 is accepted, stored and
  acknowledged, and sent to no subscriber (C86_refuted).
* A client that sends PINGREQ, DISCONNECT, PINGREQ at once can leave its
  connection for ever: the write loop returns when the closing begins, the
  read loop waits for room in the send channel, the closing waits for the
  read loop.  Its subscriptions stay, and every later reliable publication
  that reaches it waits for ever, with all subscribers behind it (C112,
  C113).
* While a connection is closed, from the return of its write loop until it
  leaves the cache, the send channel takes one message; all other reliable
  publications wait for it, and panic when the closing closes the channel.
  DISCONNECT, two publications, and a socket closed after them stop the
  server (C113_crash_refuted).
* The session key is an int32 chosen by the client and not bound to it (C85).
* A packet before CONNECT, or a disconnect during a delivery, stops the server (C84).
* Nine bytes with a negative packet length stop the server, no CONNECT needed (C89).
* The acknowledgement of a ping is read as a ping request (C88).
* Resuming an identifier that NextID gave out last makes the next NextID wait
  forever, with the lock held (C44).
* After a restart the stored subscriptions name connection numbers of the old
  process; a new connection with such a number gets their messages (C94).
* Subscriptions are messages of the contract xor a constant: whoever publishes
  under that contract can subscribe any connection, or stop the server (C94).
* One subscriber that leaves takes the others of the topic along; after a sync
  it does not leave at all (C95).
* A connection that connects again under another contract leaves its
  subscriptions behind when it breaks (C98).
* At most 1000 subscribers are reached by a publication; "?last=" in its topic
  leaves out more, and "?ttl=" in the topic of a subscription ends it (C96).
* A relay for "1d" is one for all times, since that is no duration; a relay
  for a long span sends 1000 messages and says nothing of the others (C114).
* The number of subscriptions at /varz falls below zero: a subscription that the
  store did not take is not counted, yet is taken off the counter when the
  connection ends (C115). After a restart, or a second CONNECT under another
  contract, it is too low.

Cluster
* A call to a node that is down ends the calling process (C91).
* When a node stops, the other nodes keep the subscriptions of its connections
  for ever; a new connection of that number gets their messages (C110).
* A new leader sends its list of active nodes, not the list its ring is made
  from, so a node that comes back never agrees with it (C90).
* A first subscription at a node that does not own the contract is not
  forwarded, only repeated ones are; messages published elsewhere do not arrive (C92).
* Publications for proxied connections go to a channel that `rpcWriteLoop` does
  not read.  A NOTIFY gets through, but the RECEIVE that answers it finds nothing
  in the log of its node and closes the connection (C92).
* A packet of k messages is forwarded once per message, with all of them (C92).
* The node that owns a contract is not told that a client connected without the need of
  keys; it refuses what that client sends through another node (C92).
* `Master` takes over a local connection with the same number (C93).
* A forwarded subscription for collected messages stops the owner, since proxied
  connections have no batch manager (C84).

Background expiry
* The job looks only at part 0 of the 100000 parts of the bucket (C69).
* A Get puts an expired entry into the bucket each time it meets it, and each
  later job releases its space and lowers Count again (C70).
* The job stops at the first entry it cannot read, for instance a deleted one;
  the other entries it has taken out of the bucket are then lost.
* Neither the index nor the window block of an expired message is cleared.

Sync, recovery, reopening
* Deleting a synced message changes neither index nor window; deleting an
  unsynced one leaves its window entry, so Get of the topic fails (C27).
* Deletion of a synced message puts a block at offset -1 on the free list.  When
  a later Sync takes part of it, the rest lies over live messages, which the
  next message then overwrites (C65).  A reader of the overwritten message is
  then shown the payload of another contract (C64).
* Deleting the first message of a topic before it is synced leaves the topic out
  of the tree after a reopen, and `loadTrie` stops at the first entry it cannot read.
* The counters of Varz: messages put by a batch are not counted, payloads that
  come with an error neither, deletions of unknown identifiers are; Aborts is
  never raised, and Syncs that are undone leave InMsgs as it is but lower Count
  (C116).
* The times of Varz (HMean to StdDev) of the database and of the in-memory store are those of one
  empty function, measured when the meter is made: nothing else is ever timed
  (meter.go:64, memdb/meter.go:52).
* Count changes at sync only and is decremented for unknown identifiers (C28).
* Recovery is skipped while the info file has sequence 0 (C30); the sequence is
  never raised to the recovered ones, so numbers repeat after a crash (C29): the
  recovered message is lost and the new one is read twice (C119).
* After a crash before the first sync, every later sync aborts and Count becomes
  2^64-2 (C59).  Sync drops every error.
* `Open` that fails keeps the lock.
* Reopening within the same second as the last write: recovery frees the
  current block and later puts are refused until the next tick (C63).

Puts and batches
* Encryption is on whatever the option says (C02, C54); one byte payloads panic.
* Every `Batch.Delete` panics (C55).  Abort of a managed batch panics (C33).
* A batch function that calls Write and then fails is not undone: its messages
  are in the log and come back at the next Open (C33_written_refuted).
* A committed batch is in the log, yet gone after a crash if the database was
  never synced (C118_refuted).
* A Put after a Batch in the same second is not readable (C60).
* Topics of two contracts can share a number; the message of the second is
  accepted and never found (C60).  It is not shown to the first (C64).
* Two puts with one identifier give the value twice (C58).  A reused Entry keeps
  its topic hash (C57), a reused Query its entries (C56).  A reused Entry also
  keeps the expiry time worked out from the ttl of its first use.
* Topics of about 13100 parts panic; 256 levels wrap the depth (C06, C54).

In-memory store
* A value kept by the query manager is returned after a newer put; batch blocks
  hide later puts; freed buffers are read again (C34).  In the database this makes
  a Get of one topic give the message of another, or panic, after a Sync (C103).
* Delete removes only the newest version; tombstones are lost or bring keys
  back; a delete before the log is written makes recovery panic when the value
  is shorter than 8 bytes (C35).
* Recovery cuts times by the log interval, writing by the block duration.
* Size counts overwritten keys twice (C71), and a block with one is never
  released by deletions (C72).  A mark counts at most one log.
* NewBatch on a closed store panics (C73).
* A batch aborted before Write leaves its entries (C74); Commit ignores write errors.
* One damaged log hides the logs after it, or makes Open panic, or comes back
  with zeros in a value (C75).
* Two logs with the same nanosecond id would overwrite each other's file.

Locks
* `Keys` and `Size` of memdb can deadlock with a Put (C99).
* `Sync` after `Close` never returns (C100).
* Get writes the maps of the query manager of memdb without any lock, so two Gets at the
  same time can end the process with "concurrent map writes" (C105).
* Put reads the summary of the trie (trie.go:122) without the lock under which another Put
  writes it: two Puts of new topics can end the process (C105).
* Close merges the free blocks (leasing.go:125-158) without their locks, while a Delete or
  an expiry that began before can use them (C105).
* A Put that is slower than the time of its block is not logged, or is lost although
  it returned no error (C101).
* Two new topics with a common prefix, added at the same time, can lose one of them
  until the database is opened again (C102).
* A Get during a Sync can give a message twice, miss it, or miss everything its
  topic has on disk; a Sync that fails after it has changed offsets makes topics
  lose their messages; a time that ends at the start of a Sync leaves messages
  twice in their topics (C104).

Consistent hash
* Tables of 100000 blocks use only the blocks below 65536 (C37).

Server
* Keys contain no secret; key generation is not restricted to primary clients;
  a topic "key/a/b" ignores its third part; publishing is checked with the right
  to read (C40).
* A four character prefix of a client identifier is enough once it is cached (C48).
* The publish loop sleeps two seconds per batch, which makes the duplicate
  delivery of C47 likely.
* `trie.go:122` reads the summary map without the lock (C52).
'''
claims=json.load(open('MANIFEST.json'))['claims']
titles={}
for l in open('properties.jsonl'):
    d=json.loads(l); titles[d['id']]=d['title']
how = eval(open('tools/design_how.py').read())
rows='\n## Per property\n\n| id | property | status | modelled in; how proved |\n|---|---|---|---|\n'
for c in sorted(claims,key=lambda c:int(c['property'][1:])):
    rows+='| %s | %s | %s | %s |\n'%(c['property'],titles[c['property']],c['status'],how[c['property']])
# assumptions
ass='\n## Print Assumptions per theorem\n\n'
spec={'C04_float_division':'ClassicalDedekindReals.sig_not_dec, ClassicalDedekindReals.sig_forall_dec, functional_extensionality_dep, Classical_Prop.classic'}
files={}
for f in sorted(os.listdir('rocq/theories')):
    if f.startswith('T_') and f.endswith('.v'):
        files[f]=re.findall(r'^Theorem (\w+)',open('rocq/theories/'+f).read(),re.M)
for f,ts in files.items():
    closed=[t for t in ts if t not in spec]
    ass+='* %s: Closed under the global context: %s.\n'%(f,', '.join(closed))
    for t in ts:
        if t in spec: ass+='  %s: %s.\n'%(t,spec[t])
open('DESIGN.md','w').write(head+rows+find+ass)
