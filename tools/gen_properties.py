#!/usr/bin/env python3
"""Regenerates properties.jsonl (one JSON object per line)."""
import json, os
P = []
def p(id, title, statement, quantifier, why, anchors):
    P.append(dict(id=id, title=title, statement=statement, quantifier=quantifier,
                  why_tests_cant=why, anchors=anchors))

p("C01", "Message index record survives the disk format",
  "Whatever sequence number, topic size, value size, expiry time and topic hash a message has, decoding the 26 bytes stored in front of the message gives back exactly those five values, and different values never share an encoding.",
  "every entry whose fields fit their Go types (uint64, uint16, uint32, uint32, uint64)",
  "2^272 field combinations; tests sample a handful",
  ["entry.go: _Entry.MarshalBinary, _Entry.UnmarshalBinary, entrySize"])
p("C02", "Database header survives close and open",
  "The sequence counter, message count and encryption flag written to the info file are read back unchanged by the next Open, and a header whose signature does not match is reported as corrupted instead of being used.",
  "every counter pair, either encryption setting, every 32 byte header read from disk",
  "the header fields overlap only for particular values and the file contents on open are arbitrary",
  ["db_info.go: _DBInfo.MarshalBinary, _DBInfo.UnmarshalBinary", "db.go: Open", "db_internal.go: writeInfo, readInfo"])
p("C03", "Index block round trip and lookup by sequence number",
  "A block of index slots that all belong to the same block of sequence numbers is written to disk and read back slot for slot, including deleted slots, and looking up a sequence number in the block returns the record stored for it.",
  "every list of at most 255 index slots with sequence numbers of one block, every sequence number",
  "255 slots with 8 byte keys stored relative to a base; off by one errors show up only at particular slot positions",
  ["block.go: _IndexBlock.marshalBinary, unmarshalBinary, _IndexBlock.validation", "block_reader.go: readEntry"])
p("C04", "Every sequence number owns one index slot position on disk",
  "Two sequence numbers share an index block exactly when they lie in the same run of 255, and the byte offset of the block of a sequence number is non negative and distinct for distinct blocks.",
  "every pair of sequence numbers from 1 up to 2^63",
  "the 32 bit multiplication behaves well for every number a test database reaches",
  ["block.go: blockIndex, blockOffset, blockSize, entriesPerIndexBlock"])
p("C05", "Window block round trip",
  "A time window block with its topic hash, cutoff time, next pointer and up to 335 window entries is read back from disk exactly as it was written.",
  "every window block with at most 335 entries",
  "all field values of a 4096 byte block",
  ["time_window.go: _WindowBlock.marshalBinary, unmarshalBinary", "time_window_reader.go: readWindowBlock"])
p("C06", "Topic stored with the first message is recovered as the same topic",
  "The parsed form of a topic written in front of the first message of that topic is decoded on open to the same list of parts with the same depth, so that the topic tree after a restart answers the same lookups.",
  "every topic string accepted by Put",
  "the number of parts is stored in one byte and the decoder relies on a relation between parts and depth",
  ["message/topic.go: Topic.Marshal, Topic.Unmarshal, Topic.Parse"])
p("C07", "Log file framing",
  "The records appended to one write-ahead log and flushed are returned by the reader in the order they were appended, none missing, none merged, and the reader then reports the end of the log.",
  "every list of records of any length (including empty records), any number of logs",
  "record boundaries depend on the data",
  ["wal/writer.go: Writer.Append, Writer.writeLog", "wal/reader.go: Reader.Next, Reader.Read", "wal/wal.go: put", "wal/header.go / wal_info: MarshalBinary, UnmarshalBinary"])
p("C08", "Torn log write is all or nothing",
  "If the process dies at any point while a log is being written, the next open finds either the complete log or no log of that name; a partially written log is never replayed.",
  "every crash point inside the log writer",
  "crash points are between system calls",
  ["wal/wal.go: put", "wal/writer.go: writeLog", "file.go / wal/file.go"])
p("C09", "Message identifiers carry what they were built from",
  "An identifier made for a contract, a sequence number and the current time gives back that contract, that sequence number and that time in seconds, and identifiers with different sequence numbers differ.",
  "every contract, sequence number and time in the range of the epoch",
  "all 128 bit identifiers",
  ["message/id.go: NewID, Sequence, Contract, Time, EvalPrefix, SetContract", "uid/uid.go: NewApoch"])
p("C10", "Query time cutoff selects exactly the messages not older than the cutoff",
  "A message identifier passes the query filter exactly when its contract equals the contract of the query and either no cutoff is set or the message time is not before the cutoff.",
  "every identifier, contract and cutoff",
  "equality at the boundary second and epoch inversion",
  ["message/id.go: EvalPrefix", "time_window.go"])
p("C11", "Hash function is the byte by byte hash for every input length",
  "The hash computed with the unrolled eight byte loop equals the plain byte by byte FNV-1a style fold for inputs of every length, and the salted hash is the hash of a rearrangement of the same bytes.",
  "every byte string, every salt",
  "loop unrolling goes wrong only for particular lengths",
  ["hash/hash.go: New, WithSalt, shuffleInPlace"])
p("C12", "Bloom filter has no false negatives",
  "A hash that was added to the filter is reported as possibly present ever after, whatever else is added, and still is after the filter was written to bytes and read back.",
  "every filter size, every key set, every sequence of additions",
  "a lost bit shows only for particular combinations of hashes",
  ["filter/bloom.go: Filter.Add, Filter.Contains, Bytes, newFilterFromBytes", "filter/filter.go"])
p("C13", "Identifier text encodings are lossless",
  "Encoding 8 bytes to 13 characters or 32 bytes to 52 characters and decoding gives back the same bytes, so two keys never share a text form.",
  "all 8 byte and all 32 byte strings",
  "2^64 and 2^256 inputs with hand written bit shifting",
  ["encoding/base8.go: Encode8, Decode8", "encoding/base32.go: Encode32, Decode32", "server/internal/pkg/encoding"])
p("C14", "Decrypting an encrypted payload gives the payload back",
  "With the same key every payload the database accepts can be encrypted and decrypted to the same bytes, and no payload makes the encryption step crash.",
  "every payload of every length, every key",
  "short payloads after compression hit slice bounds",
  ["crypto/mac.go: MAC.Encrypt, MAC.Decrypt, Signature", "db_internal.go: packEntry", "db.go: Get"])
p("C15", "Free space is never handed out twice",
  "Starting from disjoint free ranges, any sequence of releases of used ranges and allocations keeps all free ranges disjoint, and every allocated range lies inside one formerly free range and is disjoint from all remaining free ranges, so that a new message never overwrites a live one.",
  "every sequence of free and allocate calls with sizes of any value",
  "overlaps need particular interleavings of sizes",
  ["leasing.go: _Lease.freeBlock, allocate, _FreeBlocks.search, size"])
p("C16", "Merging neighbouring free ranges preserves free space",
  "Defragmenting the free list keeps the set of free bytes exactly and leaves no two overlapping free ranges.",
  "every free list",
  "needs adjacent ranges in particular positions",
  ["leasing.go: _Lease.defrag, _FreeBlocks.defrag"])
p("C17", "Free list survives close and open",
  "The free list written at close is the free list read at open.",
  "every free list",
  "special offsets are treated differently by the decoder",
  ["leasing.go: MarshalBinary, UnmarshalBinary, read, write"])
p("C18", "Index blocks written in ranges cover exactly the changed blocks",
  "When pending index blocks are grouped into ranges for writing, every pending block is written exactly once and no other block is touched.",
  "every sorted set of block numbers",
  "grouping depends on the gaps between block numbers",
  ["block_writer.go: blockRange, write"])
p("C19", "A stored topic is found again by its exact name",
  "After any sequence of first-time topic insertions, looking up a topic returns the hash of every inserted topic with the same parts, and only hashes of inserted topics whose pattern matches the looked up topic.",
  "every sequence of insertions, every looked up topic",
  "tree shape depends on insertion order and shared prefixes",
  ["trie.go: _Trie.add, lookup, ilookup"])
p("C20", "Wildcard topics match what the documentation says",
  "A message put to a topic with a single level wildcard is returned for every topic that agrees on the other levels and has the same number of levels, and a message put to a topic ending in three dots is returned for every topic that extends the prefix.",
  "every stored wildcard topic and every queried topic",
  "unbounded number of levels and wildcard positions",
  ["trie.go: ilookup", "message/topic.go: Parse, parseWildcardTopic, parseStaticTopic"])
p("C21", "Topics are isolated",
  "Messages put to one static topic are not returned by a query on a different static topic, and messages of one contract are not returned to another contract.",
  "every pair of topics and contracts",
  "depends on hash values of topic parts",
  ["message/topic.go: Topic.GetHash", "db_internal.go: setEntry", "trie.go: add"])
p("C22", "Expired messages are never returned",
  "A message whose expiry time has passed is not returned by Get, whether it is in memory or on disk, and a message without expiry or with a later expiry is not dropped because of it.",
  "every set of entries, every expiry value, every point in time",
  "all combinations of expiry and position in the window",
  ["time_window.go: ilookup, lookup, isExpired"])
p("C23", "Get returns at most the requested number of messages",
  "Get with limit n returns at most n messages.",
  "every history of puts and syncs, every limit, every map iteration order",
  "the limit is applied across memory, disk and several topics",
  ["time_window.go: ilookup, lookup", "db_internal.go: lookup", "db.go: Get"])
p("C24", "Get returns the newest messages first",
  "The messages returned by Get are in decreasing order of their sequence number and, when the limit cuts the result, are the newest ones.",
  "every history, every limit, every map iteration order",
  "Go map iteration order is random",
  ["db.go: Get", "time_window.go: ilookup, lookup", "query.go"])
p("C25", "Rejected puts change nothing",
  "Put with an empty topic, an oversized topic, an empty payload or an oversized payload, or on a closed database, returns an error and no later operation can tell it was attempted.",
  "every entry, every database state",
  "the absence of any effect in every state",
  ["db.go: PutEntry", "batch.go: PutEntry"])
p("C26", "An immutable database refuses deletion",
  "On a database opened without the mutable flag DeleteEntry returns the immutability error and leaves messages, counters and free space unchanged.",
  "every state and every identifier",
  "absence of effects in every state",
  ["db.go: DeleteEntry", "batch.go: DeleteEntry"])
p("C27", "A deleted message stays deleted",
  "After DeleteEntry returned without error the message is not returned by any later Get, also after a sync and a restart, and no other message is affected.",
  "every history, every identifier, restart points",
  "needs a sync between put and delete and a restart",
  ["db.go: DeleteEntry", "db_internal.go: delete", "block_writer.go: del"])
p("C28", "Count is the number of stored messages",
  "Count equals the number of successful puts minus the number of successful deletes.",
  "every sequence of operations",
  "deleting unknown or already deleted identifiers",
  ["db.go: Count, PutEntry, DeleteEntry", "db_info.go: incount, decount", "db_internal.go: delete"])
p("C29", "Sequence numbers are unique",
  "No two messages ever get the same sequence number, under any interleaving of concurrent writers and across close, crash and reopen.",
  "all interleavings of any number of writers, all crash points",
  "concurrency and crash points",
  ["db_info.go: nextSeq", "db.go: NewID, PutEntry", "recovery.go"])
p("C30", "Acknowledged messages survive a crash once their log is on disk",
  "After a crash the messages whose log file was completely written are readable after the next open.",
  "every history of puts, log flushes, syncs and crashes",
  "crash points",
  ["recovery.go", "db_sync.go", "memdb/recovery.go", "wal"])
p("C31", "Messages survive clean close and open",
  "All messages readable before Close are readable after the next Open.",
  "every history of puts, syncs and reopens",
  "depends on the number of messages per topic and of topics",
  ["db.go: Close, Open", "db_sync.go", "time_window_writer.go: append", "time_window_reader.go: blockIterator", "db_internal.go: loadTrie"])
p("C32", "Messages stay readable across syncs",
  "A message readable before a sync is readable after it, while the database stays open.",
  "every history of puts and syncs",
  "depends on block chains of several syncs",
  ["time_window_writer.go: append, write", "time_window.go: lookup", "trie.go: setOffset"])
p("C33", "A failed batch leaves no trace",
  "If the function given to Batch returns an error, Batch returns that error and none of the messages of the batch is visible.",
  "every batch function",
  "every list of operations before the error",
  ["db.go: Batch", "batch.go: Abort, Commit, Write", "memdb/db.go: Batch"])
p("C34", "In-memory store returns the last value put for a key",
  "Get returns the value of the latest Put of that key that was not deleted later, and reports that the key does not exist otherwise.",
  "every sequence of puts, deletes and block rollovers",
  "value caches and per block filters",
  ["memdb/db.go: Put, Get, Delete", "memdb/block.go: put, get", "memdb/time_block.go"])
p("C35", "In-memory store recovers what the log contains",
  "Replaying the logs of the in-memory store gives for every key the last logged put that was not deleted later.",
  "every list of logs with puts and deletes",
  "all orders of puts and deletes over several logs",
  ["memdb/recovery.go", "memdb/block.go", "memdb/tiny_log.go"])
p("C36", "Only one process opens the database",
  "While one process holds the database lock no other process can obtain it.",
  "all interleavings of lock and unlock by any number of processes",
  "interleavings of system calls",
  ["file_unix.go: createLockFile, Unlock", "db.go: Open, Close"])
p("C37", "Consistent hashing places every key on a working bucket and moves only what it must",
  "A key is always placed on a bucket that is currently in the set, and removing a bucket changes the placement only of the keys that were on it.",
  "every history of additions and removals, every key",
  "every permutation of removals",
  ["hash/consistent.go: Consistent.FindBlock, AddBlock, RemoveBlock"])
p("C38", "Query limits are normalised",
  "The number of messages asked for is the given limit, with the default when none is given and never more than the maximum.",
  "every query string and limit",
  "combinations of options",
  ["query.go: parse", "db.go: Get"])
p("C39", "Time to live option means what it says",
  "A topic option ttl given as a duration or as a number of seconds makes the message expire after that time, and no earlier or later.",
  "every ttl text",
  "numeric and duration forms overlap",
  ["message/topic.go: TTL", "entry.go: WithTTL"])
p("C40", "Security keys round trip and grant only their topic",
  "A security key generated for a contract, topic and permissions decodes to the same permissions and target, validates for that topic and contract, and an operation is allowed only when the key carries the permission for it.",
  "every contract, topic and permission mask",
  "all keys; bit packed",
  ["server/internal/message/security/key.go", "server/internal/hdl_conn.go: onSecureRequest, onPublish"])
p("C41", "At most one leader is elected per term",
  "In a cluster where all nodes have the same configuration no two nodes consider themselves elected leader in the same term.",
  "every schedule of elections, votes, delays, lost messages and pings, any number of nodes",
  "all message interleavings",
  ["server/internal/cluster_leader.go: electLeader, run, Vote"])
p("C42", "The ring gives every node the same owner for a contract",
  "The owner of a contract depends only on the set of nodes in the ring, not on the order they were added, and is always one of those nodes.",
  "every node list, every key",
  "hash collisions and order",
  ["server/internal/pkg/hash/ringhash.go: Ring.Add, Ring.Get"])
p("C43", "Wire length prefix round trip",
  "The variable length prefix of a protocol message decodes to the length that was encoded and consumes exactly the bytes that were produced.",
  "every length",
  "boundary of 7 bit groups and of the 4 byte maximum",
  ["server/utp/message.go: encodeLength, decodeLength"])
p("C44", "Local message identifiers do not repeat while in use",
  "The server does not hand out a message identifier that is in use or marked for resumption, and handing out an identifier always completes.",
  "every sequence of requests, frees and resumptions",
  "long histories",
  ["server/internal/message/messageids.go: NextID, ResumeID, FreeID"])
p("C45", "Subscription counting",
  "A subscription is stored exactly when the first of possibly several subscribe requests for a key arrives and removed exactly when the last one is cancelled.",
  "every sequence of subscribe and unsubscribe",
  "all sequences",
  ["server/internal/message/sub.go: Stats.Increment, Decrement, Exist", "server/internal/conn.go: subscribe, unsubscribe"])
p("C46", "Protocol sniffing tree answers prefix and membership queries exactly",
  "The prefix matcher built from a set of byte strings accepts exactly the inputs that start with one of the strings, and the exact matcher accepts exactly the strings.",
  "every non-empty set of strings, every input",
  "tree splitting depends on shared prefixes",
  ["server/internal/net/listener/patricia.go: newNode, splitPrefix, match"])
p("C47", "Batched delivery loses nothing",
  "Every message handed to the batch manager is delivered to the connection in exactly one batch.",
  "every arrival order, every threshold, every queue state",
  "queue full conditions",
  ["server/internal/batch.go: add, push, publishLoop, dispatch"])
p("C48", "Client identifiers round trip",
  "A client identifier decodes to the epoch, contract, primary number and permissions it was made with; only primary identifiers may create further identifiers.",
  "every identifier",
  "bit packing",
  ["server/internal/pkg/uid/clientid.go"])
p("C49", "Index updates keep the records of other messages",
  "Writing the records of a group of new messages to the index file leaves the records of every other message readable and unchanged.",
  "every index content, every group of new records",
  "read modify write of shared blocks",
  ["block_writer.go: append, write, extend", "block_reader.go: readEntry"])
p("C50", "Reads of a message return the bytes that were put",
  "A message located through the index is decoded to the identifier, topic and payload that were stored, from memory and from the data file alike.",
  "every message, every position in the file",
  "offset arithmetic over variable sizes",
  ["db_internal.go: packEntry, readEntry", "block_reader.go: readMessage", "data file layout"])
p("C51", "A log that lost its end is not taken for a complete one",
  "If the end of a write-ahead log file is missing on disk, the reader returns only records that were appended to that log.",
  "every log, every cut",
  "needs a power loss at the right moment",
  ["wal/file.go: put, read", "wal/reader.go: Next"])

p("C52", "Topics first put at the same time can all be queried",
  "When several goroutines put the first message to different topics at the same time, each of these topics is found by a query on it after the puts have returned.",
  "every number of goroutines, every set of topics, every interleaving of the locked sections of the topic tree",
  "depends on the interleaving of short critical sections",
  ["trie.go: _Trie.add, getOffset, ilookup"])
p("C53", "A node restart does not elect two leaders in one term",
  "A node that is stopped and started again does not vote a second time in a term in which it has voted, so no two nodes are elected leader in the same term.",
  "every schedule of elections, votes, pings and restarts",
  "needs a restart between two particular messages",
  ["server/internal/cluster_leader.go: electLeader, run, Vote"])
p("C54", "Every put within the limits is accepted",
  "Put with a non-empty topic and a non-empty payload within the documented size limits returns nil on an open database.",
  "every topic and payload within the limits, every database state",
  "Sizes near the edges of the compression, encryption and topic encodings are not in the tests.",
  ["db.go:346-387", "db_internal.go:253-313", "crypto/mac.go:80-93"])
p("C55", "Messages can be deleted inside a batch",
  "Batch.Delete of an identifier on a mutable database returns nil and the message is gone after the commit.",
  "every identifier and topic, every state",
  "The tests do not delete in batches.",
  ["batch.go:109-147", "db_internal.go:253-313"])
p("C56", "A query can be asked again",
  "Get with the same Query object a second time, nothing being written in between, gives the same result.",
  "every state and query",
  "Tests make a new Query for every Get.",
  ["db.go:222-319", "query.go:90-123", "db_internal.go:217-234"])
p("C57", "An entry can be used again for another topic",
  "PutEntry of an Entry whose Topic was changed after an earlier PutEntry stores the message under the new topic.",
  "every pair of topics",
  "Tests use one topic per Entry.",
  ["entry.go:97-103", "db_internal.go:253-275"])
p("C58", "An identifier names one message",
  "Two puts with one identifier leave one message in the topic.",
  "every identifier, every state",
  "Tests use an identifier once.",
  ["db.go:346-387", "db_internal.go:276-283"])
p("C59", "Sync reports failure",
  "If Sync returns nil, all messages put before it are in the index and data files.",
  "every history with crashes and syncs",
  "Needs a sync that fails; the error is dropped without a trace.",
  ["db.go:452-472", "db_sync.go:212-303"])
p("C60", "A message can be read right after Put",
  "A message is returned by a Get of its topic that follows its Put, before any other call.",
  "every history of puts and batches",
  "Depends on the time block the clock puts the message in and on what is in the filters.",
  ["db.go:346-387", "memdb/db.go", "memdb/query_manager.go"])

p("C61", "A session of puts and reads behaves like a list of messages",
  "After Open of a new database, in any sequence of Put, Get, NewID, Count and background log rotation, every Put returns nil and every Get of a topic returns the payloads of exactly the messages put so far whose topic matches, whose contract is the one asked for and which have not expired, newest first.",
  "every sequence of up to 130000 calls, topics with wildcards, contracts, expiry times, clock values, Go map orders and slice capacities; topics without hash clashes, payloads that compress to at least four bytes",
  "Involves parsing, hashing, the tree, the time window, the in-memory store, compression and encryption at once; tests cover a few fixed sequences.",
  ["db.go: Open, PutEntry, Get, NewID", "db_internal.go", "query.go", "trie.go", "timewindow.go", "memdb/"])
p("C62", "Sync does not change what a session sees",
  "The same with Sync at any points of the sequence: Sync returns nil and the answers of Get are the same as if messages had stayed in memory.",
  "as C61, with any number of syncs at any point, in any order of Go's maps",
  "Needs particular interleavings of puts, log writes and syncs, and many topics.",
  ["db.go: Sync", "db_sync.go", "block_writer.go", "window_writer.go", "block_reader.go"])

p("C63", "Closing and reopening changes nothing",
  "In any sequence of Put, Get, NewID, Count, Sync, background log rotation, and Close followed by Open of the same files: every Close and Open succeeds, every Put returns nil, and every Get returns the payloads of exactly the messages put so far, before or after any reopen, whose topic matches, whose contract is the one asked for and which have not expired, newest first.",
  "every sequence of up to 130000 calls with any number of reopens at any point, whatever part of the messages was synced; topics, contracts, expiry times, clock values and Go map orders as in C61",
  "Needs reopening at every point of a sequence, with any part of the messages in the log, in the index and data files, or in both.",
  ["db.go: Open, Close", "recovery.go", "db_internal.go: loadTrie", "time_window_reader.go: blockIterator", "memdb/", "wal/"])

p("C64", "A contract sees only its own messages",
  "Whatever topics, contracts, identifiers, expiry times and query objects are used, a Get gives only payloads of messages that were put under the contract it asks for, were not deleted, and (for a fresh query) have not expired.",
  "every history of puts, deletions, reads and background work",
  "topics of different contracts can share a number, so it depends on hash values, orders and on what memory held before",
  ["db.go: Get, PutEntry, DeleteEntry", "message/id.go: EvalPrefix", "db_internal.go: readEntry, setEntry", "memdb/db.go: Get, Delete"])
p("C65", "Deleting a message leaves the others alone",
  "Deleting a message never changes what a later Get gives for other messages, whatever is put and synced afterwards.",
  "every state, every message deleted, every later history",
  "needs free space bookkeeping, message sizes and sync order to come together",
  ["db_internal.go: delete", "block_writer.go: del, append", "leasing.go: freeBlock, allocate"])
p("C66", "last selects by age",
  "With the topic option last=duration or WithLast(duration) a Get gives the messages that are at most that old and, but for a second, none older; a text that is no duration selects nothing away.",
  "every duration, clock, identifier and limit",
  "depends on the clock in nanoseconds against the second in the identifier",
  ["query.go:71-87 WithLast", "query.go:107-122 parse", "message/topic.go:119-147 Last, getOption", "message/id.go: EvalPrefix"])
p("C67", "Which topics share a number",
  "The 64 bit number under which a topic is stored tells apart topics of different contracts (24 bits of them), different numbers of levels and different mixes of names, and nothing else.",
  "every two contracts and topics",
  "about all pairs of topics; tests see only the pairs they use",
  ["message/topic.go:68-87 AddContract, GetHash"])
p("C68", "Background expiry takes only expired messages and disturbs no reader",
  "What the background job removes was seen by a Get when it had already expired, and its time is past when the job runs; the job alone changes no file and no answer of a Get.",
  "every history of calls, jobs and restarts; every state for the second part",
  "about all histories; the entries pass through a bucket keyed by time and shard",
  ["expiry_window.go:85-148 getExpiredEntries, addExpiry", "db_sync.go:306-328 expireEntries"])
p("C69", "Expired messages are eventually taken by the background job",
  "With background expiry on, a message that a Get met as expired is taken by a job that runs a minute or more later.",
  "every interleaving of Gets and jobs, every time of expiry",
  "the parts of the bucket that are looked at depend on the hash of the time",
  ["expiry_window.go:85-148 getExpiredEntries, addExpiry", "db_internal.go:38"])
p("C70", "The space of an expired message is released once",
  "The background job releases the space of each expired message once, so that it never releases space that has since been given to another message.",
  "every state of the free list and every bucket; witness run for the rest",
  "shows only when released space was reused between two jobs",
  ["db_sync.go:306-328 expireEntries", "time_window.go:229-330 ilookup, lookup"])
p("C71", "Size of the in-memory store is the number of keys held",
  "DB.Size of the in-memory store is the number of keys held, a key counting once for every time block that holds it.",
  "every history of puts, deletes, frees, ticks, commits and batches",
  "needs overwrites, deletions and tombstones in blocks that were partly released",
  ["memdb/db.go:425-438 Size", "memdb/block.go put, delete"])
p("C72", "A past block is released with its last key",
  "When Delete removes the last key of a time block that is not the current one, the block and its log files are released.",
  "every history, every key",
  "needs blocks with overwritten and deleted keys, several logs per block and tombstones of other blocks",
  ["memdb/db.go:285-364 Delete", "memdb/db_internal.go:314-338 releaseLog"])
p("C73", "A closed in-memory store refuses every operation",
  "After Close, Put, Get, Lookup, Delete, Free and batches report an error, change nothing and show nothing.",
  "every state in which the store is closed, every key, time and value",
  "tests close few stores, and none with pending logs or batches",
  ["memdb/db.go:109-121 Close", "memdb/db_internal.go:84-102 close", "memdb/batch.go:46-51 batch"])
p("C74", "Aborting a batch of the in-memory store undoes it",
  "After NewBatch, any puts and writes, and Abort, every lookup answers as before the batch and the log directory holds the same files.",
  "every reachable store, every batch with names not in use",
  "tests abort no batch; the blocks of a batch share the buffer pool and the log with everything else",
  ["memdb/batch.go:54-130 Put, Write, Abort", "memdb/db_internal.go:314-338 releaseLog"])
p("C75", "A damaged log does not keep the in-memory store from opening",
  "A log file that lost its end is passed over at Open: Open succeeds and gives what the other logs hold, and no value that was never put.",
  "every directory of logs, every log cut at any length",
  "every length of every log would have to be tried, among others before and after it",
  ["memdb/recovery.go:78-185 startRecovery", "wal/file.go:105-151 read", "wal/reader.go:50-93 Iterator, Next"])
p("C76", "A stream over gRPC packets is a stream of bytes",
  "What is written to one end of a connection over a gRPC stream is read at the other end in order, nothing lost or repeated, whatever the sizes of the writes, of the packets and of the read buffers; Write answers the number of bytes given to it.",
  "all writes, all chunk sizes, all sequences of read buffers",
  "needs every combination of packet and buffer sizes",
  ["server/common/conn.go:75-150 Read, Write", "server/common/encode.go:55-83 Encode, Decode, ChunkedEncoder"])
p("C77", "Looking at the first bytes of a connection takes nothing away",
  "The listener hands a connection to the first protocol that matches the beginning of its bytes, however they arrive, and that protocol then reads all bytes from the first, and an error only after them.",
  "all lists of matchers, all arrivals of bytes and failing reads, all read sizes",
  "the number of ways in which bytes arrive and are read grows without bound",
  ["server/internal/net/listener/listener.go:243-273 serve", "listener.go:309-370 Conn, stream"])
p("C78", "Every metric is sent once, in packets of bounded size",
  "Metrics leave in order in packets that hold whole lines and are no longer than the packet size unless a single line is longer; a metric that does not leave is part of a packet counted as lost.",
  "all histories of metrics, flushes and sends, all packet sizes and queue capacities",
  "depends on where the lines fall relative to the packet size and on the state of the queue",
  ["server/internal/pkg/stats/buffers.go:24-55 checkBuf, flushBuf", "server/internal/pkg/stats/stats.go:123-211 flushLoop, sendLoop"])
p("C79", "Time series answer about the newest times",
  "Minimum, maximum and median of a time series are those of the newest times added since the last reset, up to the size of the sample.",
  "all histories of additions and resets, all sizes",
  "the ring of times wraps; every position of the wrap and every order of times would have to be tried",
  ["metrics/sample.go:73-158 NewSample, AddTime, Snapshot", "metrics/sample.go:236-324"])
p("C80", "An announced message can be fetched until its receipt is reported",
  "When the server has announced a reliable publication to a subscriber (NOTIFY with its identifier), a RECEIVE with that identifier from any connection of the subscriber's session brings exactly that publication, until the session reports its receipt; whatever other clients do in between.",
  "all reachable server states, all further packets, deliveries, disconnects, reconnects and restarts that do not reuse the identifier",
  "depends on the interleaving of publishers, deliveries and reconnects between announcement and request",
  ["server/internal/conn.go:248-313 publish", "server/internal/hdl_conn.go:242-275", "server/internal/store/store.go:203-260"])
p("C81", "A client is sent only messages for its subscriptions",
  "Every message sent to a client is a notice of the server, an answer to a relay request, or a message that another client published, with permission, on a topic that matches a subscription of the client under the contract of the publisher, with the published payload; a publication that is fetched holds such a message.",
  "all runs of the server, any number of clients, any packets in any order",
  "a leak needs one wrong pairing among unboundedly many clients, contracts, sessions and orders of goroutines",
  ["server/internal/conn.go:126-157 SendMessage", "server/internal/conn.go:248-313 publish", "server/internal/hdl_conn.go:437-487 onPublish"])
p("C82", "A client that comes back is told of all waiting messages",
  "When a client reconnects to its session without asking for a clean one, it is sent a NOTIFY for every message of the session that still waits for its receipt, and all of them stay available.",
  "all reachable states, all sets of waiting messages, all orders of the keys of the log",
  "depends on what the log holds and on the number of the session; tests use one session and few messages",
  ["server/internal/hdl_conn.go:95-160", "server/internal/conn.go:316-344 resume"])
p("C83", "A message whose receipt was reported does not come back",
  "After a client reported the receipt of a message, no later reconnect to the session announces it again, unless its identifier is used again.",
  "all reachable states, all further histories without a publication under that identifier",
  "any later event could bring the message back; histories are unbounded",
  ["server/internal/hdl_conn.go:242-275", "server/internal/conn.go:316-344 resume", "server/internal/store/store.go:203-260"])
p("C84", "No packet of a client brings the server down",
  "Handling the packets of clients never panics; the only causes are packets before CONNECT, texts without a topic, identifiers too short to decode, session keys that hit a short packet, and a delivery to a connection that is closed or not yet connected.",
  "all runs of the server and all packets",
  "a panic needs a particular state of other connections and goroutines",
  ["server/internal/hdl_conn.go:79-280 handler", "server/internal/conn.go:248-313 publish", "server/internal/conn.go:389-424 close"])
p("C85", "Sessions are kept apart",
  "A publication fetched by a connection waits for a client that presented the same session key.",
  "all runs of the server in which each connection presents one key",
  "depends on collisions between session keys, epochs, message identifiers and connection numbers in one store",
  ["server/internal/hdl_conn.go:131-157", "server/internal/store/store.go:183-288"])
p("C86", "A publication reaches all subscribers",
  "A message published with permission and stored is acknowledged and reaches every connected client with a matching subscription of the same contract: as announcement when both ask for reliable delivery, in the batch when the subscription is batched or delayed, at once otherwise.",
  "all reachable states, all sets of subscriptions, modes and delays",
  "the loop over subscribers runs through states changed by the deliveries before",
  ["server/internal/conn.go:126-157 SendMessage", "server/internal/conn.go:248-313 publish", "server/internal/batch.go:93-108"])
p("C87", "Publications of one client arrive in order",
  "Two messages published one after the other by one client reach a subscriber in that order.",
  "all runs of the server",
  "the order of goroutines is chosen by the scheduler",
  ["server/internal/hdl_conn.go:437-487 onPublish", "server/internal/conn.go:248-313 publish"])
p("C88", "Packets come back from the wire with every field",
  "Reading the bytes of a sequence of packets (CONNECT, PUBLISH, RELAY, SUBSCRIBE, UNSUBSCRIBE, PINGREQ, DISCONNECT and control messages) gives the same packets with the same fields, and every packet can be written.",
  "all packets with values of their Go types, all sequences of packets",
  "the fields range over 2^32 values and arbitrary strings, their absence on the wire depends on the value",
  ["server/utp/connect.go:64-104", "server/utp/publish.go:41-83", "server/utp/subscribe.go:50-142", "server/utp/relay.go:41-79", "server/utp/flow_control.go:46-97", "server/internal/net/message.go:35-99"])
p("C89", "Broken and hostile input never makes up packets and never stops the server",
  "A stream of packets that breaks off at any byte gives exactly the packets that arrived completely; no bytes of a client bring the reader down.",
  "all sequences of packets, all places to break off, all bytes",
  "2^8 values for each byte of unbounded input",
  ["server/internal/net/message.go:35-85 Read", "server/utp/message.go:84-142 FromBinary", "server/internal/hdl_conn.go:45-81 readLoop"])
p("C90", "The nodes of a cluster agree who owns a contract",
  "While one node leads and its pings arrive, every connected node comes to have the ring of the leader: the same owner for every contract, and the leader takes its requests.",
  "all runs of a cluster of any size, all orders, delays and losses of votes and pings",
  "depends on which pings were taken before, during and after changes of leader",
  ["server/internal/cluster_leader.go:260-338", "server/internal/cluster.go:605-625 rehash", "server/internal/cluster.go:352-373 nodeForContract"])
p("C91", "A node keeps running when another one fails",
  "The failure of one node of a cluster ends no other process.",
  "all runs of a cluster of any size",
  "the end of the process is inside a logging call, and only in the case that the other node is down while connected",
  ["server/internal/cluster.go:187-209 call", "server/internal/cluster_leader.go:101-130 sendPings"])
p("C92", "Publications reach subscribers on every node",
  "In a cluster whose nodes agree on the ring, a client gets the messages of its subscriptions exactly once, whichever nodes it and the publisher are connected to.",
  "all runs of a cluster of any size; all contracts, topics, delivery modes and interleavings",
  "needs several nodes with clients of one contract on different ones; all requests are acknowledged in the failing cases",
  ["server/internal/conn.go:180-313 subscribe, unsubscribe, publish", "server/internal/cluster.go:287-441 Master, Proxy, routeToContract, connGone", "server/internal/cluster.go:514-556 rpcWriteLoop"])
p("C93", "A request runs as the client that sent it, on every node",
  "A request that is forwarded to another node is executed there with the identity of the client that sent it, and changes the identity of no other client.",
  "all runs of a cluster of any size",
  "needs two connections of different nodes with the same number, which depends on the random first number of each process",
  ["server/internal/cluster.go:287-331 Master", "server/internal/conn.go:94-113 newRpcConn", "server/internal/pkg/uid/connid.go:27 NewLID"])
p("C94", "Publications go only to subscribers of the same contract",
  "With subscriptions and messages kept in one database, a publication of a contract is sent only to connections that subscribed under that contract, in this process, and have not unsubscribed.",
  "all histories of subscribing, unsubscribing, publishing and storing, with any topics",
  "depends on what else the database holds: messages of other contracts, subscriptions of an earlier process",
  ["server/internal/store/store.go:121-146 Subscription", "server/internal/db/unitdb/adapter.go:128-176", "server/internal/conn.go:180-313 subscribe, unsubscribe, publish"])
p("C95", "Unsubscribing ends one subscription and no other",
  "After a connection has unsubscribed successfully it is sent no further publications, and the other subscribers of the topic are still sent them.",
  "all histories, at any time relative to the background sync",
  "a test that unsubscribes and publishes at once sees neither the effect of the sync in between nor that on the other subscribers",
  ["server/internal/conn.go:217-246 unsubscribe", "server/internal/store/store.go:145 Delete", "db.go:399-425 DeleteEntry"])
p("C96", "Publications reach all subscribers",
  "A publication is sent to every connection of its contract that has subscribed to a matching topic and not unsubscribed, however many there are and whatever was stored meanwhile.",
  "all histories of subscribing, publishing and background work",
  "needs more than a thousand subscribers, two syncs, or options in the topic of a publication",
  ["server/internal/conn.go:248-313 publish", "server/internal/db/unitdb/adapter.go:148-156 Get", "options.go:171 defaultQueryLimit"])
p("C97", "A subscription lasts until its own connection ends it",
  "Once subscribed, a connection is among the receivers of every matching publication of its contract until it unsubscribes, breaks, is refused at CONNECT or asks for a message that does not exist; no packet, disconnect or goroutine of another connection, and no restart, takes it away.",
  "all runs of the server with any number of connections, and all interleavings with the goroutines of publications",
  "needs all sequences of requests of the other connections",
  ["server/internal/conn.go:180-245 subscribe, unsubscribe", "server/internal/conn.go:389-424 close", "server/internal/message/sub.go:94-125 Increment, Decrement"])
p("C98", "When a connection ends, none of its subscriptions remain",
  "After a connection has broken, no stored subscription names it, whatever it subscribed to, unsubscribed from and repeated before.",
  "all runs of the server between accepting a connection and its end",
  "needs all sequences of subscribing and unsubscribing of one connection, mixed with those of others",
  ["server/internal/conn.go:389-424 close", "server/internal/conn.go:180-245 subscribe, unsubscribe", "server/internal/message/sub.go:94-125 Increment, Decrement"])
p("C99", "Concurrent calls of the in-memory store all return",
  "Any number of goroutines call Put, Get, Lookup, Delete, Free, BlockIterator, Keys, Size and the batch operations of memdb at the same time, while its write and commit loops run: no set of them waits for each other for ever.",
  "all finite sets of calls with any blocks, filters, time locks and branches, and all schedules of their goroutines",
  "a deadlock needs one particular interleaving of lock operations of several goroutines; tests see a few",
  ["memdb/db.go:125-438", "memdb/db_internal.go:105-339", "memdb/tiny_log.go:117-241", "memdb/batch.go:39-128", "memdb/time_mark.go:41-105", "wal/wal.go:121-134", "wal/writer.go:98-127"])
p("C100", "Concurrent calls of the database all return",
  "Any number of goroutines call Put, Get, Delete, Sync, Close and batches on one database, while the syncer, the expirer and the loops of memdb run: every call returns.",
  "all finite sets of calls with any shards, blocks and branches, and all schedules of their goroutines",
  "a deadlock needs one particular interleaving of lock operations of several goroutines; tests see a few",
  ["db.go:222-471", "db_internal.go:122-150", "db_sync.go:50-329", "trie.go:110-211", "time_window.go:154-327", "expiry_window.go:73-148", "leasing.go:160-215", "file.go:212-265"])
p("C101", "An acknowledged Put is logged although other goroutines run",
  "Once a Put of the in-memory store has returned without an error, its record stays readable until an iteration (Sync) has handed it to its caller, and once its time is over and the logs of that time are written, it is in a log file or has been handed over - whatever the write loop, the commit loop, the iteration with Free and other Puts do in between.",
  "all runs of the goroutines, one step per critical section, in any order, with any times and any reuse of buffers",
  "the order of steps of four kinds of goroutines; a test sees a few orders and the losing ones need a pause of a goroutine for longer than the time of a block",
  ["memdb/db.go:255-285", "memdb/db.go:367-392", "memdb/block.go:83-113", "memdb/db_internal.go:132-141", "memdb/db_internal.go:259-339", "memdb/tiny_log.go:117-139", "memdb/tiny_log.go:235-238", "memdb/time_mark.go:41-81"])
p("C102", "Topics added at the same time are all found",
  "Goroutines Put messages on new topics at the same time: once a Put has returned, a Get of its topic (without wildcards) finds the topic in the trie, and goes on doing so.",
  "all sets of topics and all runs of the goroutines, one step per critical section of the trie",
  "a topic is lost only when two goroutines are between the same two statements for topics with a common new prefix; tests add topics one after the other",
  ["trie.go:117-152", "trie.go:155-186", "mutex.go:25-48", "db.go:380-385"])
p("C103", "A message keeps its payload after it was read",
  "A message that was put and read gives the same payload at every later Get while it is stored, whatever Syncs and Puts to other topics come in between, and whether or not the memory of its old block is used again.",
  "all sessions of puts, reads, ticks, commits and syncs; all choices of the buffer pool",
  "needs a read before the Sync that frees the block, a later block that gets the same buffer from the pool, and a read after that",
  ["db_internal.go:196-212", "memdb/db.go:179-256", "memdb/db_internal.go:184-237", "memdb/db_internal.go:314-338", "memdb/block.go:68-80"])
p("C104", "A Get at the same time as a Sync gives every returned message once",
  "Once a Put has returned, every Get of its topic gives its message, and gives it once, whatever other Puts, Gets and a Sync do at the same time; and a Get gives only messages of its topic.",
  "all runs of Puts, Gets and Syncs, one step per change that other goroutines can see, with any times in the logs and any number of entries in a window block",
  "the window in memory, the offset in the trie, the window file and the index change at four moments of a Sync; the losing orders need a Get or the end of a time between two of them",
  ["db.go:346-387", "db_internal.go:217-234", "db_sync.go:212-303", "time_window.go:168-330", "time_window_writer.go:36-194", "trie.go:117-152"])
p("C105", "No map is written while another goroutine uses it",
  "However the calls of the database and of the in-memory store (Put, Get, Delete, Sync, batches, expiry, Close, and the loops of the store) are scheduled, no goroutine writes a Go map while another goroutine reads or writes the same map. (If one does, the Go runtime ends the process: the error cannot be recovered from.)",
  "for every number of goroutines, every list of calls and every path each of them takes, every schedule, and every map of the store, the trie, the window, the expiry window, the files and the free blocks",
  "Whether two accesses meet depends on the schedule; a test, and the race detector, see only the schedules that happen to occur.",
  ["memdb/db.go:178-256", "memdb/db.go:290-392", "memdb/db_internal.go:153-256", "memdb/time_mark.go:41-100", "trie.go:117-211", "time_window.go:168-327", "expiry_window.go:84-148", "leasing.go:125-205", "file.go:212-262", "db_internal.go:122-150"])

p("C106", "What Sync has written survives a power failure",
  "When Sync has returned without error, the messages it has written are on the disk: if the machine loses power afterwards, they are there when the database is opened again. In the same way the log of a block is on the disk before a batch is acknowledged, and it is removed only when its messages are on the disk.",
  "for every disk, every sequence of calls with any bytes, and every set of operations that a power failure may lose (those not followed by a flush of a file they touch)",
  "A test process reads back what it wrote from the cache of the operating system; no test can lose exactly the writes that were not flushed.",
  ["db_sync.go:163-209", "file.go:118-147", "file.go:229-238", "db.go:130", "wal/file.go:67-103", "db_sync.go:286-293", "options.go:58-62", "README.md:54"])

p("C107", "FileSize is the size of the files",
  "FileSize gives the sum of the lengths of the files of the database.",
  "for every disk and every sequence of calls with any bytes",
  "A test compares one number for one history, and the sum depends on everything written before; the test of it in the repository is commented out (db_test.go:82).",
  ["db.go:474-477", "file.go:240-250", "db.go:130"])

p("C108", "A write of a batch returns",
  "Every Write (and Commit) of a batch returns: if every goroutine of the store gets its turn again and again, a batch that waits for its log to be written is woken.",
  "for every capacity of the queue, every infinite schedule in which each goroutine has infinitely many turns, every number of batches and ticks, and every batch",
  "That nothing waits for ever is a statement about infinite runs; a test sees a finite piece of one schedule, with a disk that is fast enough.",
  ["memdb/batch.go:80-90", "memdb/tiny_log.go:183-245", "memdb/tiny_log.go:248-275", "memdb/tiny_log.go:278-306", "memdb/db_internal.go:299-311", "batch.go:194-231"])

p("C109", "Close ends the goroutines of the log pool and returns",
  "When Close is called, the goroutines of the log pool write what is queued and end, Close returns, and no goroutine panics, whatever batches are being written at the time.",
  "for every capacity of the queue, every infinite schedule in which each goroutine has infinitely many turns, and every state in which Close is called",
  "The order in which channels are closed matters only in schedules that a test cannot choose.",
  ["memdb/tiny_log.go:170-198", "memdb/tiny_log.go:202-245", "memdb/tiny_log.go:248-306", "memdb/db_internal.go:82-100", "memdb/batch.go:80-90"])

p("C110", "Nothing is left in a cluster of a connection that ended",
  "When a connection of a node of a cluster has ended, no node keeps a subscription of it, then and ever after: messages are not forwarded to it, and a client that later gets its number is not sent messages it did not subscribe to.",
  "for every ring of nodes, every history of packets, connects, disconnects and forwarded requests on all nodes, in every order of the goroutines",
  "Subscriptions left on another node show only when the number of the connection is used again, after a restart of one node in the middle of a run.",
  ["server/internal/cluster.go:264-331", "server/internal/cluster.go:376-441", "server/internal/cluster.go:514-556", "server/internal/conn.go:389-424"])
p("C111", "The log pool writes each log once and in order",
  "The logs handed to the log pool are written at most once and in the order in which they were handed over; when the write of a batch returns its log is written; when Close has returned every log was written, unless it was dropped from a full queue; while the queue is not full none is dropped.",
  "for every capacity of the queue and every schedule of the goroutines and calls",
  "Order and loss depend on the interleaving of four goroutines; a test sees a few of them.",
  ["memdb/tiny_log.go:151-198", "memdb/tiny_log.go:202-245", "memdb/tiny_log.go:248-306", "memdb/batch.go:80-90"])

p("C112", "A connection whose client has left is closed",
  "When a client disconnects or is lost, the closing of its connection ends: both loops have returned, its subscriptions are removed, it is out of the cache, and stays so.",
  "all interleavings of the read loop, the write loop, those who close and any number of publishers",
  "needs the loops to be stopped between two instructions of the closing",
  ["server/internal/conn.go:389-424 close", "server/internal/hdl_conn.go:45-75 readLoop", "server/internal/hdl_conn.go:271-312 writeLoop"])
p("C113", "Who publishes to a connection that ends is neither blocked nor crashes the server",
  "A publication to a subscriber that is leaving is delivered or dropped; its goroutine ends, and the server goes on.",
  "all interleavings of a connection that ends with any number of publishers",
  "needs publications between the end of the write loop and the removal from the cache",
  ["server/internal/conn.go:262-305 publish", "server/internal/conn.go:389-424 close"])
p("C114", "A relay brings the messages of its span",
  "A client that asks for a relay of a topic and a span gets exactly the messages that its contract stored on topics that match, that have not expired and that are not older than the span, the newest first, under the topic it asked for; subscriptions stored in the same database do not show.",
  "all histories of subscriptions, publications, ticks, commits, syncs and relays, all topics, times and spans",
  "the messages lie in memory, in the window file and in the block files at once; which entries a lookup skips depends on the times of syncs",
  ["server/internal/hdl_conn.go:349-381 onRelay", "server/internal/store/store.go:152-163 Get", "server/internal/db/unitdb/adapter.go:149-157 Get", "query.go:71-87 WithLast"])
p("C115", "The server counts its connections and subscriptions",
  "At every moment the number of connections the server shows at /varz is the number of connections that are open, and the number of subscriptions is the number of stored subscriptions.",
  "all runs of the server: connections, packets, broken connections, restarts, in any order, any number of clients",
  "the counters are changed in several places of the code, one of them only if a first or last subscription is meant, and every path that ends a connection must pass exactly once",
  ["server/internal/monitor.go:119-136 Varz", "server/internal/conn.go:87-88 newConn", "server/internal/conn.go:204-245 subscribe, unsubscribe", "server/internal/conn.go:389-424 close", "server/internal/message/sub.go:94-125"])
p("C116", "The statistics of a database tell what was done",
  "Varz gives the number of messages put, identifiers leased, payloads returned, messages deleted and messages synced since Open; Count is what was synced less what was deleted.",
  "all histories of calls, batches and syncs",
  "tests read single counters after single calls",
  ["meter.go:28-42, 142-158", "db.go:296-332, 382", "db_internal.go:321", "db_sync.go:195-204"])
p("C117", "Messages of a committed batch can be read",
  "When Batch returns nil, every message the function put is found by the next Get of a topic it matches, in the order of the puts, together with the messages put before and after, whether or not the function called Write in between.",
  "all sequences of single puts, batches, Gets and background steps on a new database",
  "tests commit one batch and read it back once",
  ["batch.go:71-103 PutEntry", "batch.go:195-257 Write, Commit", "db.go:434-460 Batch", "memdb/batch.go:39-131"])
p("C118", "What a batch has written outlives the process",
  "Once Write of a batch returns, the log directory holds exactly the puts since the last Write, next to all it held before; if the process dies at any later time before a Sync, they are there when the store is opened again; and once the batch is committed, its blocks are handed to Sync.",
  "all reachable stores and all batches with any number of puts and Writes",
  "no test kills the process after a batch; tests close the store, which writes the logs again",
  ["memdb/batch.go:83-117 Write, Commit", "memdb/db_internal.go:259-297 tinyWrite", "memdb/recovery.go:84-182", "memdb/time_mark.go:41-94"])
p("C119", "A crash loses only the last messages since the last Open, and none that were in the log",
  "If the process dies after an Open that followed a Close, the next Open succeeds; every message sent before that Close is read as if nothing had happened, and of those sent since, a first part in the order of the calls, which has at least every message put before a tick of the log whose write was completed; reads show exactly these.",
  "all sessions with any number of restarts before, any work after the last one, a crash at any point between two calls, and any queries afterwards",
  "no test kills the process; which messages are in the log, in memory or in the files at that time depends on the whole history of puts, ticks, writes and syncs",
  ["db.go:50-210 Open", "recovery.go:45-163", "db_internal.go:168-194 loadTrie", "db_sync.go:200-330", "memdb/db_internal.go:259-297 tinyWrite", "memdb/recovery.go:84-182"])

p("C120", "The uptime shown is the time the database or server has been up",
  "The text shown as uptime, read as numbers with the units years, days, hours, minutes and seconds, is the number of whole seconds since the start; units follow each other without gaps down to seconds, the first number is not zero (but for seconds alone) and no number reaches one of the next larger unit. Two times that show the same text are in the same second.",
  "all durations that are not negative",
  "a test looks at some durations; the text changes its shape at every unit and every number is the remainder of another division",
  ["meter.go:118-139 uptime", "memdb/meter.go:91-112", "server/internal/monitor.go:95-116"])

p("C121", "The percentiles shown are times of events of that rank, and all numbers shown are in order",
  "P75, P95, P99 and P999 of a snapshot are the times of events among the newest 50; the number of events at or before it in the order of times is the nearest whole number to that part of all. Long5p and Short5p are the means, rounded down, of the longest and the shortest events, 5% of them to the nearest whole number and at least one. Min, Short5p, P50, P75, P95, P99, P999 and Max are in ascending order, and Long5p is between P95 and Max.",
  "all sequences of added times and resets with at least one time since the last reset; means: times not negative and of a sum below 2^63",
  "a test looks at a few sets of times; the positions come from float64 products that are rounded twice, and depend on how many events there are",
  ["metrics/sample.go:263-265 p", "metrics/sample.go:280-312 long5p, short5p", "metrics/sample.go:143-158 Snapshot", "metrics/timeseries.go NewTimeSeries"])

p("C122", "Free space is used again",
  "If the space freed by deletions is at least the configured minimum and one of the free ranges is large enough for a new message, the message is written into a free range, the smallest that is large enough, instead of at the end of the file.",
  "all free lists that come from releases and allocations, and all sizes",
  "a test deletes and puts messages of one size; whether a range is found depends on the hash of its offset, that of the size and the order of all releases",
  ["leasing.go:115-119 search", "leasing.go:125-158 defrag", "leasing.go:160-206 freeBlock, allocate", "db_internal.go:143 close", "options.go:239-241 WithFreeBlockSize"])

p("C123", "Options in a topic do not change where a message goes",
  "A topic with a question mark and options after it has the parts, the depth, the type and the hash of the topic without them: messages put with options are filed with, and found by queries of, the topic itself.",
  "every contract, every topic text that is not empty and has no question mark, and every sequence of bytes after the question mark",
  "a test uses a few well formed options; the bytes after the mark may hold dots, stars and further question marks that mean something in a topic",
  ["message/topic.go:178-192 ParseKey", "message/topic.go:233-296 parseWildcardTopic", "message/topic.go:78-87 GetHash"])

out = os.path.join(os.path.dirname(os.path.abspath(__file__)), "..", "properties.jsonl")
with open(out, "w") as f:
    for x in P: f.write(json.dumps(x) + "\n")
print(len(P))
