{"id": "C01", "title": "Message index record survives the disk format", "statement": "Whatever sequence number, topic size, value size, expiry time and topic hash a message has, decoding the 26 bytes stored in front of the message gives back exactly those five values, and different values never share an encoding.", "quantifier": "every entry whose fields fit their Go types (uint64, uint16, uint32, uint32, uint64)", "why_tests_cant": "2^272 field combinations; tests sample a handful", "anchors": ["entry.go: _Entry.MarshalBinary, _Entry.UnmarshalBinary, entrySize"]}
{"id": "C02", "title": "Database header survives close and open", "statement": "The sequence counter, message count and encryption flag written to the info file are read back unchanged by the next Open, and a header whose signature does not match is reported as corrupted instead of being used.", "quantifier": "every counter pair, either encryption setting, every 32 byte header read from disk", "why_tests_cant": "the header fields overlap only for particular values and the file contents on open are arbitrary", "anchors": ["db_info.go: _DBInfo.MarshalBinary, _DBInfo.UnmarshalBinary", "db.go: Open", "db_internal.go: writeInfo, readInfo"]}
{"id": "C03", "title": "Index block round trip and lookup by sequence number", "statement": "A block of index slots that all belong to the same block of sequence numbers is written to disk and read back slot for slot, including deleted slots, and looking up a sequence number in the block returns the record stored for it.", "quantifier": "every list of at most 255 index slots with sequence numbers of one block, every sequence number", "why_tests_cant": "255 slots with 8 byte keys stored relative to a base; off by one errors show up only at particular slot positions", "anchors": ["block.go: _IndexBlock.marshalBinary, unmarshalBinary, _IndexBlock.validation", "block_reader.go: readEntry"]}
{"id": "C04", "title": "Every sequence number owns one index slot position on disk", "statement": "Two sequence numbers share an index block exactly when they lie in the same run of 255, and the byte offset of the block of a sequence number is non negative and distinct for distinct blocks.", "quantifier": "every pair of sequence numbers from 1 up to 2^63", "why_tests_cant": "the 32 bit multiplication behaves well for every number a test database reaches", "anchors": ["block.go: blockIndex, blockOffset, blockSize, entriesPerIndexBlock"]}
{"id": "C05", "title": "Window block round trip", "statement": "A time window block with its topic hash, cutoff time, next pointer and up to 335 window entries is read back from disk exactly as it was written.", "quantifier": "every window block with at most 335 entries", "why_tests_cant": "all field values of a 4096 byte block", "anchors": ["time_window.go: _WindowBlock.marshalBinary, unmarshalBinary", "time_window_reader.go: readWindowBlock"]}
{"id": "C06", "title": "Topic stored with the first message is recovered as the same topic", "statement": "The parsed form of a topic written in front of the first message of that topic is decoded on open to the same list of parts with the same depth, so that the topic tree after a restart answers the same lookups.", "quantifier": "every topic string accepted by Put", "why_tests_cant": "the number of parts is stored in one byte and the decoder relies on a relation between parts and depth", "anchors": ["message/topic.go: Topic.Marshal, Topic.Unmarshal, Topic.Parse"]}
{"id": "C07", "title": "Log file framing", "statement": "The records appended to one write-ahead log and flushed are returned by the reader in the order they were appended, none missing, none merged, and the reader then reports the end of the log.", "quantifier": "every list of records of any length (including empty records), any number of logs", "why_tests_cant": "record boundaries depend on the data", "anchors": ["wal/writer.go: Writer.Append, Writer.writeLog", "wal/reader.go: Reader.Next, Reader.Read", "wal/wal.go: put", "wal/header.go / wal_info: MarshalBinary, UnmarshalBinary"]}
{"id": "C08", "title": "Torn log write is all or nothing", "statement": "If the process dies at any point while a log is being written, the next open finds either the complete log or no log of that name; a partially written log is never replayed.", "quantifier": "every crash point inside the log writer", "why_tests_cant": "crash points are between system calls", "anchors": ["wal/wal.go: put", "wal/writer.go: writeLog", "file.go / wal/file.go"]}
{"id": "C09", "title": "Message identifiers carry what they were built from", "statement": "An identifier made for a contract, a sequence number and the current time gives back that contract, that sequence number and that time in seconds, and identifiers with different sequence numbers differ.", "quantifier": "every contract, sequence number and time in the range of the epoch", "why_tests_cant": "all 128 bit identifiers", "anchors": ["message/id.go: NewID, Sequence, Contract, Time, EvalPrefix, SetContract", "uid/uid.go: NewApoch"]}
{"id": "C10", "title": "Query time cutoff selects exactly the messages not older than the cutoff", "statement": "A message identifier passes the query filter exactly when its contract equals the contract of the query and either no cutoff is set or the message time is not before the cutoff.", "quantifier": "every identifier, contract and cutoff", "why_tests_cant": "equality at the boundary second and epoch inversion", "anchors": ["message/id.go: EvalPrefix", "time_window.go"]}
{"id": "C11", "title": "Hash function is the byte by byte hash for every input length", "statement": "The hash computed with the unrolled eight byte loop equals the plain byte by byte FNV-1a style fold for inputs of every length, and the salted hash is the hash of a rearrangement of the same bytes.", "quantifier": "every byte string, every salt", "why_tests_cant": "loop unrolling goes wrong only for particular lengths", "anchors": ["hash/hash.go: New, WithSalt, shuffleInPlace"]}
{"id": "C12", "title": "Bloom filter has no false negatives", "statement": "A hash that was added to the filter is reported as possibly present ever after, whatever else is added, and still is after the filter was written to bytes and read back.", "quantifier": "every filter size, every key set, every sequence of additions", "why_tests_cant": "a lost bit shows only for particular combinations of hashes", "anchors": ["filter/bloom.go: Filter.Add, Filter.Contains, Bytes, newFilterFromBytes", "filter/filter.go"]}
{"id": "C13", "title": "Identifier text encodings are lossless", "statement": "Encoding 8 bytes to 13 characters or 32 bytes to 52 characters and decoding gives back the same bytes, so two keys never share a text form.", "quantifier": "all 8 byte and all 32 byte strings", "why_tests_cant": "2^64 and 2^256 inputs with hand written bit shifting", "anchors": ["encoding/base8.go: Encode8, Decode8", "encoding/base32.go: Encode32, Decode32", "server/internal/pkg/encoding"]}
{"id": "C14", "title": "Decrypting an encrypted payload gives the payload back", "statement": "With the same key every payload the database accepts can be encrypted and decrypted to the same bytes, and no payload makes the encryption step crash.", "quantifier": "every payload of every length, every key", "why_tests_cant": "short payloads after compression hit slice bounds", "anchors": ["crypto/mac.go: MAC.Encrypt, MAC.Decrypt, Signature", "db_internal.go: packEntry", "db.go: Get"]}
{"id": "C15", "title": "Free space is never handed out twice", "statement": "Starting from disjoint free ranges, any sequence of releases of used ranges and allocations keeps all free ranges disjoint, and every allocated range lies inside one formerly free range and is disjoint from all remaining free ranges, so that a new message never overwrites a live one.", "quantifier": "every sequence of free and allocate calls with sizes of any value", "why_tests_cant": "overlaps need particular interleavings of sizes", "anchors": ["leasing.go: _Lease.freeBlock, allocate, _FreeBlocks.search, size"]}
{"id": "C16", "title": "Merging neighbouring free ranges preserves free space", "statement": "Defragmenting the free list keeps the set of free bytes exactly and leaves no two overlapping free ranges.", "quantifier": "every free list", "why_tests_cant": "needs adjacent ranges in particular positions", "anchors": ["leasing.go: _Lease.defrag, _FreeBlocks.defrag"]}
{"id": "C17", "title": "Free list survives close and open", "statement": "The free list written at close is the free list read at open.", "quantifier": "every free list", "why_tests_cant": "special offsets are treated differently by the decoder", "anchors": ["leasing.go: MarshalBinary, UnmarshalBinary, read, write"]}
{"id": "C18", "title": "Index blocks written in ranges cover exactly the changed blocks", "statement": "When pending index blocks are grouped into ranges for writing, every pending block is written exactly once and no other block is touched.", "quantifier": "every sorted set of block numbers", "why_tests_cant": "grouping depends on the gaps between block numbers", "anchors": ["block_writer.go: blockRange, write"]}
{"id": "C19", "title": "A stored topic is found again by its exact name", "statement": "After any sequence of first-time topic insertions, looking up a topic returns the hash of every inserted topic with the same parts, and only hashes of inserted topics whose pattern matches the looked up topic.", "quantifier": "every sequence of insertions, every looked up topic", "why_tests_cant": "tree shape depends on insertion order and shared prefixes", "anchors": ["trie.go: _Trie.add, lookup, ilookup"]}
{"id": "C20", "title": "Wildcard topics match what the documentation says", "statement": "A message put to a topic with a single level wildcard is returned for every topic that agrees on the other levels and has the same number of levels, and a message put to a topic ending in three dots is returned for every topic that extends the prefix.", "quantifier": "every stored wildcard topic and every queried topic", "why_tests_cant": "unbounded number of levels and wildcard positions", "anchors": ["trie.go: ilookup", "message/topic.go: Parse, parseWildcardTopic, parseStaticTopic"]}
{"id": "C21", "title": "Topics are isolated", "statement": "Messages put to one static topic are not returned by a query on a different static topic, and messages of one contract are not returned to another contract.", "quantifier": "every pair of topics and contracts", "why_tests_cant": "depends on hash values of topic parts", "anchors": ["message/topic.go: Topic.GetHash", "db_internal.go: setEntry", "trie.go: add"]}
{"id": "C22", "title": "Expired messages are never returned", "statement": "A message whose expiry time has passed is not returned by Get, whether it is in memory or on disk, and a message without expiry or with a later expiry is not dropped because of it.", "quantifier": "every set of entries, every expiry value, every point in time", "why_tests_cant": "all combinations of expiry and position in the window", "anchors": ["time_window.go: ilookup, lookup, isExpired"]}
{"id": "C23", "title": "Get returns at most the requested number of messages", "statement": "Get with limit n returns at most n messages.", "quantifier": "every history of puts and syncs, every limit, every map iteration order", "why_tests_cant": "the limit is applied across memory, disk and several topics", "anchors": ["time_window.go: ilookup, lookup", "db_internal.go: lookup", "db.go: Get"]}
{"id": "C24", "title": "Get returns the newest messages first", "statement": "The messages returned by Get are in decreasing order of their sequence number and, when the limit cuts the result, are the newest ones.", "quantifier": "every history, every limit, every map iteration order", "why_tests_cant": "Go map iteration order is random", "anchors": ["db.go: Get", "time_window.go: ilookup, lookup", "query.go"]}
{"id": "C25", "title": "Rejected puts change nothing", "statement": "Put with an empty topic, an oversized topic, an empty payload or an oversized payload, or on a closed database, returns an error and no later operation can tell it was attempted.", "quantifier": "every entry, every database state", "why_tests_cant": "the absence of any effect in every state", "anchors": ["db.go: PutEntry", "batch.go: PutEntry"]}
{"id": "C26", "title": "An immutable database refuses deletion", "statement": "On a database opened without the mutable flag DeleteEntry returns the immutability error and leaves messages, counters and free space unchanged.", "quantifier": "every state and every identifier", "why_tests_cant": "absence of effects in every state", "anchors": ["db.go: DeleteEntry", "batch.go: DeleteEntry"]}
{"id": "C27", "title": "A deleted message stays deleted", "statement": "After DeleteEntry returned without error the message is not returned by any later Get, also after a sync and a restart, and no other message is affected.", "quantifier": "every history, every identifier, restart points", "why_tests_cant": "needs a sync between put and delete and a restart", "anchors": ["db.go: DeleteEntry", "db_internal.go: delete", "block_writer.go: del"]}
{"id": "C28", "title": "Count is the number of stored messages", "statement": "Count equals the number of successful puts minus the number of successful deletes.", "quantifier": "every sequence of operations", "why_tests_cant": "deleting unknown or already deleted identifiers", "anchors": ["db.go: Count, PutEntry, DeleteEntry", "db_info.go: incount, decount", "db_internal.go: delete"]}
{"id": "C29", "title": "Sequence numbers are unique", "statement": "No two messages ever get the same sequence number, under any interleaving of concurrent writers and across close, crash and reopen.", "quantifier": "all interleavings of any number of writers, all crash points", "why_tests_cant": "concurrency and crash points", "anchors": ["db_info.go: nextSeq", "db.go: NewID, PutEntry", "recovery.go"]}
{"id": "C30", "title": "Acknowledged messages survive a crash once their log is on disk", "statement": "After a crash the messages whose log file was completely written are readable after the next open.", "quantifier": "every history of puts, log flushes, syncs and crashes", "why_tests_cant": "crash points", "anchors": ["recovery.go", "db_sync.go", "memdb/recovery.go", "wal"]}
{"id": "C31", "title": "Messages survive clean close and open", "statement": "All messages readable before Close are readable after the next Open.", "quantifier": "every history of puts, syncs and reopens", "why_tests_cant": "depends on the number of messages per topic and of topics", "anchors": ["db.go: Close, Open", "db_sync.go", "time_window_writer.go: append", "time_window_reader.go: blockIterator", "db_internal.go: loadTrie"]}
{"id": "C32", "title": "Messages stay readable across syncs", "statement": "A message readable before a sync is readable after it, while the database stays open.", "quantifier": "every history of puts and syncs", "why_tests_cant": "depends on block chains of several syncs", "anchors": ["time_window_writer.go: append, write", "time_window.go: lookup", "trie.go: setOffset"]}
{"id": "C33", "title": "A failed batch leaves no trace", "statement": "If the function given to Batch returns an error, Batch returns that error and none of the messages of the batch is visible.", "quantifier": "every batch function", "why_tests_cant": "every list of operations before the error", "anchors": ["db.go: Batch", "batch.go: Abort, Commit, Write", "memdb/db.go: Batch"]}
{"id": "C34", "title": "In-memory store returns the last value put for a key", "statement": "Get returns the value of the latest Put of that key that was not deleted later, and reports that the key does not exist otherwise.", "quantifier": "every sequence of puts, deletes and block rollovers", "why_tests_cant": "value caches and per block filters", "anchors": ["memdb/db.go: Put, Get, Delete", "memdb/block.go: put, get", "memdb/time_block.go"]}
{"id": "C35", "title": "In-memory store recovers what the log contains", "statement": "Replaying the logs of the in-memory store gives for every key the last logged put that was not deleted later.", "quantifier": "every list of logs with puts and deletes", "why_tests_cant": "all orders of puts and deletes over several logs", "anchors": ["memdb/recovery.go", "memdb/block.go", "memdb/tiny_log.go"]}
{"id": "C36", "title": "Only one process opens the database", "statement": "While one process holds the database lock no other process can obtain it.", "quantifier": "all interleavings of lock and unlock by any number of processes", "why_tests_cant": "interleavings of system calls", "anchors": ["file_unix.go: createLockFile, Unlock", "db.go: Open, Close"]}
{"id": "C37", "title": "Consistent hashing places every key on a working bucket and moves only what it must", "statement": "A key is always placed on a bucket that is currently in the set, and removing a bucket changes the placement only of the keys that were on it.", "quantifier": "every history of additions and removals, every key", "why_tests_cant": "every permutation of removals", "anchors": ["hash/consistent.go: Consistent.FindBlock, AddBlock, RemoveBlock"]}
{"id": "C38", "title": "Query limits are normalised", "statement": "The number of messages asked for is the given limit, with the default when none is given and never more than the maximum.", "quantifier": "every query string and limit", "why_tests_cant": "combinations of options", "anchors": ["query.go: parse", "db.go: Get"]}
{"id": "C39", "title": "Time to live option means what it says", "statement": "A topic option ttl given as a duration or as a number of seconds makes the message expire after that time, and no earlier or later.", "quantifier": "every ttl text", "why_tests_cant": "numeric and duration forms overlap", "anchors": ["message/topic.go: TTL", "entry.go: WithTTL"]}
{"id": "C40", "title": "Security keys round trip and grant only their topic", "statement": "A security key generated for a contract, topic and permissions decodes to the same permissions and target, validates for that topic and contract, and an operation is allowed only when the key carries the permission for it.", "quantifier": "every contract, topic and permission mask", "why_tests_cant": "all keys; bit packed", "anchors": ["server/internal/message/security/key.go", "server/internal/hdl_conn.go: onSecureRequest, onPublish"]}
{"id": "C41", "title": "At most one leader is elected per term", "statement": "In a cluster where all nodes have the same configuration no two nodes consider themselves elected leader in the same term.", "quantifier": "every schedule of elections, votes, delays, lost messages and pings, any number of nodes", "why_tests_cant": "all message interleavings", "anchors": ["server/internal/cluster_leader.go: electLeader, run, Vote"]}
{"id": "C42", "title": "The ring gives every node the same owner for a contract", "statement": "The owner of a contract depends only on the set of nodes in the ring, not on the order they were added, and is always one of those nodes.", "quantifier": "every node list, every key", "why_tests_cant": "hash collisions and order", "anchors": ["server/internal/pkg/hash/ringhash.go: Ring.Add, Ring.Get"]}
{"id": "C43", "title": "Wire length prefix round trip", "statement": "The variable length prefix of a protocol message decodes to the length that was encoded and consumes exactly the bytes that were produced.", "quantifier": "every length", "why_tests_cant": "boundary of 7 bit groups and of the 4 byte maximum", "anchors": ["server/utp/message.go: encodeLength, decodeLength"]}
{"id": "C44", "title": "Local message identifiers do not repeat while in use", "statement": "The server does not hand out a message identifier that is in use or marked for resumption, and handing out an identifier always completes.", "quantifier": "every sequence of requests, frees and resumptions", "why_tests_cant": "long histories", "anchors": ["server/internal/message/messageids.go: NextID, ResumeID, FreeID"]}
{"id": "C45", "title": "Subscription counting", "statement": "A subscription is stored exactly when the first of possibly several subscribe requests for a key arrives and removed exactly when the last one is cancelled.", "quantifier": "every sequence of subscribe and unsubscribe", "why_tests_cant": "all sequences", "anchors": ["server/internal/message/sub.go: Stats.Increment, Decrement, Exist", "server/internal/conn.go: subscribe, unsubscribe"]}
{"id": "C46", "title": "Protocol sniffing tree answers prefix and membership queries exactly", "statement": "The prefix matcher built from a set of byte strings accepts exactly the inputs that start with one of the strings, and the exact matcher accepts exactly the strings.", "quantifier": "every non-empty set of strings, every input", "why_tests_cant": "tree splitting depends on shared prefixes", "anchors": ["server/internal/net/listener/patricia.go: newNode, splitPrefix, match"]}
{"id": "C47", "title": "Batched delivery loses nothing", "statement": "Every message handed to the batch manager is delivered to the connection in exactly one batch.", "quantifier": "every arrival order, every threshold, every queue state", "why_tests_cant": "queue full conditions", "anchors": ["server/internal/batch.go: add, push, publishLoop, dispatch"]}
{"id": "C48", "title": "Client identifiers round trip", "statement": "A client identifier decodes to the epoch, contract, primary number and permissions it was made with; only primary identifiers may create further identifiers.", "quantifier": "every identifier", "why_tests_cant": "bit packing", "anchors": ["server/internal/pkg/uid/clientid.go"]}
{"id": "C49", "title": "Index updates keep the records of other messages", "statement": "Writing the records of a group of new messages to the index file leaves the records of every other message readable and unchanged.", "quantifier": "every index content, every group of new records", "why_tests_cant": "read modify write of shared blocks", "anchors": ["block_writer.go: append, write, extend", "block_reader.go: readEntry"]}
{"id": "C50", "title": "Reads of a message return the bytes that were put", "statement": "A message located through the index is decoded to the identifier, topic and payload that were stored, from memory and from the data file alike.", "quantifier": "every message, every position in the file", "why_tests_cant": "offset arithmetic over variable sizes", "anchors": ["db_internal.go: packEntry, readEntry", "block_reader.go: readMessage", "data file layout"]}
{"id": "C51", "title": "A log that lost its end is not taken for a complete one", "statement": "If the end of a write-ahead log file is missing on disk, the reader returns only records that were appended to that log.", "quantifier": "every log, every cut", "why_tests_cant": "needs a power loss at the right moment", "anchors": ["wal/file.go: put, read", "wal/reader.go: Next"]}
{"id": "C52", "title": "Topics first put at the same time can all be queried", "statement": "When several goroutines put the first message to different topics at the same time, each of these topics is found by a query on it after the puts have returned.", "quantifier": "every number of goroutines, every set of topics, every interleaving of the locked sections of the topic tree", "why_tests_cant": "depends on the interleaving of short critical sections", "anchors": ["trie.go: _Trie.add, getOffset, ilookup"]}
{"id": "C53", "title": "A node restart does not elect two leaders in one term", "statement": "A node that is stopped and started again does not vote a second time in a term in which it has voted, so no two nodes are elected leader in the same term.", "quantifier": "every schedule of elections, votes, pings and restarts", "why_tests_cant": "needs a restart between two particular messages", "anchors": ["server/internal/cluster_leader.go: electLeader, run, Vote"]}
{"id": "C54", "title": "Every put within the limits is accepted", "statement": "Put with a non-empty topic and a non-empty payload within the documented size limits returns nil on an open database.", "quantifier": "every topic and payload within the limits, every database state", "why_tests_cant": "Sizes near the edges of the compression, encryption and topic encodings are not in the tests.", "anchors": ["db.go:346-387", "db_internal.go:253-313", "crypto/mac.go:80-93"]}
{"id": "C55", "title": "Messages can be deleted inside a batch", "statement": "Batch.Delete of an identifier on a mutable database returns nil and the message is gone after the commit.", "quantifier": "every identifier and topic, every state", "why_tests_cant": "The tests do not delete in batches.", "anchors": ["batch.go:109-147", "db_internal.go:253-313"]}
{"id": "C56", "title": "A query can be asked again", "statement": "Get with the same Query object a second time, nothing being written in between, gives the same result.", "quantifier": "every state and query", "why_tests_cant": "Tests make a new Query for every Get.", "anchors": ["db.go:222-319", "query.go:90-123", "db_internal.go:217-234"]}
{"id": "C57", "title": "An entry can be used again for another topic", "statement": "PutEntry of an Entry whose Topic was changed after an earlier PutEntry stores the message under the new topic.", "quantifier": "every pair of topics", "why_tests_cant": "Tests use one topic per Entry.", "anchors": ["entry.go:97-103", "db_internal.go:253-275"]}
{"id": "C58", "title": "An identifier names one message", "statement": "Two puts with one identifier leave one message in the topic.", "quantifier": "every identifier, every state", "why_tests_cant": "Tests use an identifier once.", "anchors": ["db.go:346-387", "db_internal.go:276-283"]}
{"id": "C59", "title": "Sync reports failure", "statement": "If Sync returns nil, all messages put before it are in the index and data files.", "quantifier": "every history with crashes and syncs", "why_tests_cant": "Needs a sync that fails; the error is dropped without a trace.", "anchors": ["db.go:452-472", "db_sync.go:212-303"]}
{"id": "C60", "title": "A message can be read right after Put", "statement": "A message is returned by a Get of its topic that follows its Put, before any other call.", "quantifier": "every history of puts and batches", "why_tests_cant": "Depends on the time block the clock puts the message in and on what is in the filters.", "anchors": ["db.go:346-387", "memdb/db.go", "memdb/query_manager.go"]}
{"id": "C61", "title": "A session of puts and reads behaves like a list of messages", "statement": "After Open of a new database, in any sequence of Put, Get, NewID, Count and background log rotation, every Put returns nil and every Get of a topic returns the payloads of exactly the messages put so far whose topic matches, whose contract is the one asked for and which have not expired, newest first.", "quantifier": "every sequence of up to 130000 calls, topics with wildcards, contracts, expiry times, clock values, Go map orders and slice capacities; topics without hash clashes, payloads that compress to at least four bytes", "why_tests_cant": "Involves parsing, hashing, the tree, the time window, the in-memory store, compression and encryption at once; tests cover a few fixed sequences.", "anchors": ["db.go: Open, PutEntry, Get, NewID", "db_internal.go", "query.go", "trie.go", "timewindow.go", "memdb/"]}
{"id": "C62", "title": "Sync does not change what a session sees", "statement": "The same with Sync at any points of the sequence: Sync returns nil and the answers of Get are the same as if messages had stayed in memory.", "quantifier": "as C61, with any number of syncs at any point, in any order of Go's maps", "why_tests_cant": "Needs particular interleavings of puts, log writes and syncs, and many topics.", "anchors": ["db.go: Sync", "db_sync.go", "block_writer.go", "window_writer.go", "block_reader.go"]}
{"id": "C63", "title": "Closing and reopening changes nothing", "statement": "In any sequence of Put, Get, NewID, Count, Sync, background log rotation, and Close followed by Open of the same files: every Close and Open succeeds, every Put returns nil, and every Get returns the payloads of exactly the messages put so far, before or after any reopen, whose topic matches, whose contract is the one asked for and which have not expired, newest first.", "quantifier": "every sequence of up to 130000 calls with any number of reopens at any point, whatever part of the messages was synced; topics, contracts, expiry times, clock values and Go map orders as in C61", "why_tests_cant": "Needs reopening at every point of a sequence, with any part of the messages in the log, in the index and data files, or in both.", "anchors": ["db.go: Open, Close", "recovery.go", "db_internal.go: loadTrie", "time_window_reader.go: blockIterator", "memdb/", "wal/"]}
{"id": "C64", "title": "A contract sees only its own messages", "statement": "Whatever topics, contracts, identifiers, expiry times and query objects are used, a Get gives only payloads of messages that were put under the contract it asks for, were not deleted, and (for a fresh query) have not expired.", "quantifier": "every history of puts, deletions, reads and background work", "why_tests_cant": "topics of different contracts can share a number, so it depends on hash values, orders and on what memory held before", "anchors": ["db.go: Get, PutEntry, DeleteEntry", "message/id.go: EvalPrefix", "db_internal.go: readEntry, setEntry", "memdb/db.go: Get, Delete"]}
{"id": "C65", "title": "Deleting a message leaves the others alone", "statement": "Deleting a message never changes what a later Get gives for other messages, whatever is put and synced afterwards.", "quantifier": "every state, every message deleted, every later history", "why_tests_cant": "needs free space bookkeeping, message sizes and sync order to come together", "anchors": ["db_internal.go: delete", "block_writer.go: del, append", "leasing.go: freeBlock, allocate"]}
{"id": "C66", "title": "last selects by age", "statement": "With the topic option last=duration or WithLast(duration) a Get gives the messages that are at most that old and, but for a second, none older; a text that is no duration selects nothing away.", "quantifier": "every duration, clock, identifier and limit", "why_tests_cant": "depends on the clock in nanoseconds against the second in the identifier", "anchors": ["query.go:71-87 WithLast", "query.go:107-122 parse", "message/topic.go:119-147 Last, getOption", "message/id.go: EvalPrefix"]}
{"id": "C67", "title": "Which topics share a number", "statement": "The 64 bit number under which a topic is stored tells apart topics of different contracts (24 bits of them), different numbers of levels and different mixes of names, and nothing else.", "quantifier": "every two contracts and topics", "why_tests_cant": "about all pairs of topics; tests see only the pairs they use", "anchors": ["message/topic.go:68-87 AddContract, GetHash"]}
{"id": "C68", "title": "Background expiry takes only expired messages and disturbs no reader", "statement": "What the background job removes was seen by a Get when it had already expired, and its time is past when the job runs; the job alone changes no file and no answer of a Get.", "quantifier": "every history of calls, jobs and restarts; every state for the second part", "why_tests_cant": "about all histories; the entries pass through a bucket keyed by time and shard", "anchors": ["expiry_window.go:85-148 getExpiredEntries, addExpiry", "db_sync.go:306-328 expireEntries"]}
{"id": "C69", "title": "Expired messages are eventually taken by the background job", "statement": "With background expiry on, a message that a Get met as expired is taken by a job that runs a minute or more later.", "quantifier": "every interleaving of Gets and jobs, every time of expiry", "why_tests_cant": "the parts of the bucket that are looked at depend on the hash of the time", "anchors": ["expiry_window.go:85-148 getExpiredEntries, addExpiry", "db_internal.go:38"]}
{"id": "C70", "title": "The space of an expired message is released once", "statement": "The background job releases the space of each expired message once, so that it never releases space that has since been given to another message.", "quantifier": "every state of the free list and every bucket; witness run for the rest", "why_tests_cant": "shows only when released space was reused between two jobs", "anchors": ["db_sync.go:306-328 expireEntries", "time_window.go:229-330 ilookup, lookup"]}
{"id": "C71", "title": "Size of the in-memory store is the number of keys held", "statement": "DB.Size of the in-memory store is the number of keys held, a key counting once for every time block that holds it.", "quantifier": "every history of puts, deletes, frees, ticks, commits and batches", "why_tests_cant": "needs overwrites, deletions and tombstones in blocks that were partly released", "anchors": ["memdb/db.go:425-438 Size", "memdb/block.go put, delete"]}
{"id": "C72", "title": "A past block is released with its last key", "statement": "When Delete removes the last key of a time block that is not the current one, the block and its log files are released.", "quantifier": "every history, every key", "why_tests_cant": "needs blocks with overwritten and deleted keys, several logs per block and tombstones of other blocks", "anchors": ["memdb/db.go:285-364 Delete", "memdb/db_internal.go:314-338 releaseLog"]}
{"id": "C73", "title": "A closed in-memory store refuses every operation", "statement": "After Close, Put, Get, Lookup, Delete, Free and batches report an error, change nothing and show nothing.", "quantifier": "every state in which the store is closed, every key, time and value", "why_tests_cant": "tests close few stores, and none with pending logs or batches", "anchors": ["memdb/db.go:109-121 Close", "memdb/db_internal.go:84-102 close", "memdb/batch.go:46-51 batch"]}
{"id": "C74", "title": "Aborting a batch of the in-memory store undoes it", "statement": "After NewBatch, any puts and writes, and Abort, every lookup answers as before the batch and the log directory holds the same files.", "quantifier": "every reachable store, every batch with names not in use", "why_tests_cant": "tests abort no batch; the blocks of a batch share the buffer pool and the log with everything else", "anchors": ["memdb/batch.go:54-130 Put, Write, Abort", "memdb/db_internal.go:314-338 releaseLog"]}
{"id": "C75", "title": "A damaged log does not keep the in-memory store from opening", "statement": "A log file that lost its end is passed over at Open: Open succeeds and gives what the other logs hold, and no value that was never put.", "quantifier": "every directory of logs, every log cut at any length", "why_tests_cant": "every length of every log would have to be tried, among others before and after it", "anchors": ["memdb/recovery.go:78-185 startRecovery", "wal/file.go:105-151 read", "wal/reader.go:50-93 Iterator, Next"]}
{"id": "C76", "title": "A stream over gRPC packets is a stream of bytes", "statement": "What is written to one end of a connection over a gRPC stream is read at the other end in order, nothing lost or repeated, whatever the sizes of the writes, of the packets and of the read buffers; Write answers the number of bytes given to it.", "quantifier": "all writes, all chunk sizes, all sequences of read buffers", "why_tests_cant": "needs every combination of packet and buffer sizes", "anchors": ["server/common/conn.go:75-150 Read, Write", "server/common/encode.go:55-83 Encode, Decode, ChunkedEncoder"]}
{"id": "C77", "title": "Looking at the first bytes of a connection takes nothing away", "statement": "The listener hands a connection to the first protocol that matches the beginning of its bytes, however they arrive, and that protocol then reads all bytes from the first, and an error only after them.", "quantifier": "all lists of matchers, all arrivals of bytes and failing reads, all read sizes", "why_tests_cant": "the number of ways in which bytes arrive and are read grows without bound", "anchors": ["server/internal/net/listener/listener.go:243-273 serve", "listener.go:309-370 Conn, stream"]}
{"id": "C78", "title": "Every metric is sent once, in packets of bounded size", "statement": "Metrics leave in order in packets that hold whole lines and are no longer than the packet size unless a single line is longer; a metric that does not leave is part of a packet counted as lost.", "quantifier": "all histories of metrics, flushes and sends, all packet sizes and queue capacities", "why_tests_cant": "depends on where the lines fall relative to the packet size and on the state of the queue", "anchors": ["server/internal/pkg/stats/buffers.go:24-55 checkBuf, flushBuf", "server/internal/pkg/stats/stats.go:123-211 flushLoop, sendLoop"]}
{"id": "C79", "title": "Time series answer about the newest times", "statement": "Minimum, maximum and median of a time series are those of the newest times added since the last reset, up to the size of the sample.", "quantifier": "all histories of additions and resets, all sizes", "why_tests_cant": "the ring of times wraps; every position of the wrap and every order of times would have to be tried", "anchors": ["metrics/sample.go:73-158 NewSample, AddTime, Snapshot", "metrics/sample.go:236-324"]}
{"id": "C80", "title": "An announced message can be fetched until its receipt is reported", "statement": "When the server has announced a reliable publication to a subscriber (NOTIFY with its identifier), a RECEIVE with that identifier from any connection of the subscriber's session brings exactly that publication, until the session reports its receipt; whatever other clients do in between.", "quantifier": "all reachable server states, all further packets, deliveries, disconnects, reconnects and restarts that do not reuse the identifier", "why_tests_cant": "depends on the interleaving of publishers, deliveries and reconnects between announcement and request", "anchors": ["server/internal/conn.go:248-313 publish", "server/internal/hdl_conn.go:242-275", "server/internal/store/store.go:203-260"]}
{"id": "C81", "title": "A client is sent only messages for its subscriptions", "statement": "Every message sent to a client is a notice of the server, an answer to a relay request, or a message that another client published, with permission, on a topic that matches a subscription of the client under the contract of the publisher, with the published payload; a publication that is fetched holds such a message.", "quantifier": "all runs of the server, any number of clients, any packets in any order", "why_tests_cant": "a leak needs one wrong pairing among unboundedly many clients, contracts, sessions and orders of goroutines", "anchors": ["server/internal/conn.go:126-157 SendMessage", "server/internal/conn.go:248-313 publish", "server/internal/hdl_conn.go:437-487 onPublish"]}
{"id": "C82", "title": "A client that comes back is told of all waiting messages", "statement": "When a client reconnects to its session without asking for a clean one, it is sent a NOTIFY for every message of the session that still waits for its receipt, and all of them stay available.", "quantifier": "all reachable states, all sets of waiting messages, all orders of the keys of the log", "why_tests_cant": "depends on what the log holds and on the number of the session; tests use one session and few messages", "anchors": ["server/internal/hdl_conn.go:95-160", "server/internal/conn.go:316-344 resume"]}
{"id": "C83", "title": "A message whose receipt was reported does not come back", "statement": "After a client reported the receipt of a message, no later reconnect to the session announces it again, unless its identifier is used again.", "quantifier": "all reachable states, all further histories without a publication under that identifier", "why_tests_cant": "any later event could bring the message back; histories are unbounded", "anchors": ["server/internal/hdl_conn.go:242-275", "server/internal/conn.go:316-344 resume", "server/internal/store/store.go:203-260"]}
{"id": "C84", "title": "No packet of a client brings the server down", "statement": "Handling the packets of clients never panics; the only causes are packets before CONNECT, texts without a topic, identifiers too short to decode, session keys that hit a short packet, and a delivery to a connection that is closed or not yet connected.", "quantifier": "all runs of the server and all packets", "why_tests_cant": "a panic needs a particular state of other connections and goroutines", "anchors": ["server/internal/hdl_conn.go:79-280 handler", "server/internal/conn.go:248-313 publish", "server/internal/conn.go:389-424 close"]}
{"id": "C85", "title": "Sessions are kept apart", "statement": "A publication fetched by a connection waits for a client that presented the same session key.", "quantifier": "all runs of the server in which each connection presents one key", "why_tests_cant": "depends on collisions between session keys, epochs, message identifiers and connection numbers in one store", "anchors": ["server/internal/hdl_conn.go:131-157", "server/internal/store/store.go:183-288"]}
{"id": "C86", "title": "A publication reaches all subscribers", "statement": "A message published with permission and stored is acknowledged and reaches every connected client with a matching subscription of the same contract: as announcement when both ask for reliable delivery, in the batch when the subscription is batched or delayed, at once otherwise.", "quantifier": "all reachable states, all sets of subscriptions, modes and delays", "why_tests_cant": "the loop over subscribers runs through states changed by the deliveries before", "anchors": ["server/internal/conn.go:126-157 SendMessage", "server/internal/conn.go:248-313 publish", "server/internal/batch.go:93-108"]}
{"id": "C87", "title": "Publications of one client arrive in order", "statement": "Two messages published one after the other by one client reach a subscriber in that order.", "quantifier": "all runs of the server", "why_tests_cant": "the order of goroutines is chosen by the scheduler", "anchors": ["server/internal/hdl_conn.go:437-487 onPublish", "server/internal/conn.go:248-313 publish"]}
{"id": "C88", "title": "Packets come back from the wire with every field", "statement": "Reading the bytes of a sequence of packets (CONNECT, PUBLISH, RELAY, SUBSCRIBE, UNSUBSCRIBE, PINGREQ, DISCONNECT and control messages) gives the same packets with the same fields, and every packet can be written.", "quantifier": "all packets with values of their Go types, all sequences of packets", "why_tests_cant": "the fields range over 2^32 values and arbitrary strings, their absence on the wire depends on the value", "anchors": ["server/utp/connect.go:64-104", "server/utp/publish.go:41-83", "server/utp/subscribe.go:50-142", "server/utp/relay.go:41-79", "server/utp/flow_control.go:46-97", "server/internal/net/message.go:35-99"]}
{"id": "C89", "title": "Broken and hostile input never makes up packets and never stops the server", "statement": "A stream of packets that breaks off at any byte gives exactly the packets that arrived completely; no bytes of a client bring the reader down.", "quantifier": "all sequences of packets, all places to break off, all bytes", "why_tests_cant": "2^8 values for each byte of unbounded input", "anchors": ["server/internal/net/message.go:35-85 Read", "server/utp/message.go:84-142 FromBinary", "server/internal/hdl_conn.go:45-81 readLoop"]}
{"id": "C90", "title": "The nodes of a cluster agree who owns a contract", "statement": "While one node leads and its pings arrive, every connected node comes to have the ring of the leader: the same owner for every contract, and the leader takes its requests.", "quantifier": "all runs of a cluster of any size, all orders, delays and losses of votes and pings", "why_tests_cant": "depends on which pings were taken before, during and after changes of leader", "anchors": ["server/internal/cluster_leader.go:260-338", "server/internal/cluster.go:605-625 rehash", "server/internal/cluster.go:352-373 nodeForContract"]}
{"id": "C91", "title": "A node keeps running when another one fails", "statement": "The failure of one node of a cluster ends no other process.", "quantifier": "all runs of a cluster of any size", "why_tests_cant": "the end of the process is inside a logging call, and only in the case that the other node is down while connected", "anchors": ["server/internal/cluster.go:187-209 call", "server/internal/cluster_leader.go:101-130 sendPings"]}
{"id": "C92", "title": "Publications reach subscribers on every node", "statement": "In a cluster whose nodes agree on the ring, a client gets the messages of its subscriptions exactly once, whichever nodes it and the publisher are connected to.", "quantifier": "all runs of a cluster of any size; all contracts, topics, delivery modes and interleavings", "why_tests_cant": "needs several nodes with clients of one contract on different ones; all requests are acknowledged in the failing cases", "anchors": ["server/internal/conn.go:180-313 subscribe, unsubscribe, publish", "server/internal/cluster.go:287-441 Master, Proxy, routeToContract, connGone", "server/internal/cluster.go:514-556 rpcWriteLoop"]}
{"id": "C93", "title": "A request runs as the client that sent it, on every node", "statement": "A request that is forwarded to another node is executed there with the identity of the client that sent it, and changes the identity of no other client.", "quantifier": "all runs of a cluster of any size", "why_tests_cant": "needs two connections of different nodes with the same number, which depends on the random first number of each process", "anchors": ["server/internal/cluster.go:287-331 Master", "server/internal/conn.go:94-113 newRpcConn", "server/internal/pkg/uid/connid.go:27 NewLID"]}
{"id": "C94", "title": "Publications go only to subscribers of the same contract", "statement": "With subscriptions and messages kept in one database, a publication of a contract is sent only to connections that subscribed under that contract, in this process, and have not unsubscribed.", "quantifier": "all histories of subscribing, unsubscribing, publishing and storing, with any topics", "why_tests_cant": "depends on what else the database holds: messages of other contracts, subscriptions of an earlier process", "anchors": ["server/internal/store/store.go:121-146 Subscription", "server/internal/db/unitdb/adapter.go:128-176", "server/internal/conn.go:180-313 subscribe, unsubscribe, publish"]}
{"id": "C95", "title": "Unsubscribing ends one subscription and no other", "statement": "After a connection has unsubscribed successfully it is sent no further publications, and the other subscribers of the topic are still sent them.", "quantifier": "all histories, at any time relative to the background sync", "why_tests_cant": "a test that unsubscribes and publishes at once sees neither the effect of the sync in between nor that on the other subscribers", "anchors": ["server/internal/conn.go:217-246 unsubscribe", "server/internal/store/store.go:145 Delete", "db.go:399-425 DeleteEntry"]}
{"id": "C96", "title": "Publications reach all subscribers", "statement": "A publication is sent to every connection of its contract that has subscribed to a matching topic and not unsubscribed, however many there are and whatever was stored meanwhile.", "quantifier": "all histories of subscribing, publishing and background work", "why_tests_cant": "needs more than a thousand subscribers, two syncs, or options in the topic of a publication", "anchors": ["server/internal/conn.go:248-313 publish", "server/internal/db/unitdb/adapter.go:148-156 Get", "options.go:171 defaultQueryLimit"]}
{"id": "C97", "title": "A subscription lasts until its own connection ends it", "statement": "Once subscribed, a connection is among the receivers of every matching publication of its contract until it unsubscribes, breaks, is refused at CONNECT or asks for a message that does not exist; no packet, disconnect or goroutine of another connection, and no restart, takes it away.", "quantifier": "all runs of the server with any number of connections, and all interleavings with the goroutines of publications", "why_tests_cant": "needs all sequences of requests of the other connections", "anchors": ["server/internal/conn.go:180-245 subscribe, unsubscribe", "server/internal/conn.go:389-424 close", "server/internal/message/sub.go:94-125 Increment, Decrement"]}
{"id": "C98", "title": "When a connection ends, none of its subscriptions remain", "statement": "After a connection has broken, no stored subscription names it, whatever it subscribed to, unsubscribed from and repeated before.", "quantifier": "all runs of the server between accepting a connection and its end", "why_tests_cant": "needs all sequences of subscribing and unsubscribing of one connection, mixed with those of others", "anchors": ["server/internal/conn.go:389-424 close", "server/internal/conn.go:180-245 subscribe, unsubscribe", "server/internal/message/sub.go:94-125 Increment, Decrement"]}
{"id": "C99", "title": "Concurrent calls of the in-memory store all return", "statement": "Any number of goroutines call Put, Get, Lookup, Delete, Free, BlockIterator, Keys, Size and the batch operations of memdb at the same time, while its write and commit loops run: no set of them waits for each other for ever.", "quantifier": "all finite sets of calls with any blocks, filters, time locks and branches, and all schedules of their goroutines", "why_tests_cant": "a deadlock needs one particular interleaving of lock operations of several goroutines; tests see a few", "anchors": ["memdb/db.go:125-438", "memdb/db_internal.go:105-339", "memdb/tiny_log.go:117-241", "memdb/batch.go:39-128", "memdb/time_mark.go:41-105", "wal/wal.go:121-134", "wal/writer.go:98-127"]}
{"id": "C100", "title": "Concurrent calls of the database all return", "statement": "Any number of goroutines call Put, Get, Delete, Sync, Close and batches on one database, while the syncer, the expirer and the loops of memdb run: every call returns.", "quantifier": "all finite sets of calls with any shards, blocks and branches, and all schedules of their goroutines", "why_tests_cant": "a deadlock needs one particular interleaving of lock operations of several goroutines; tests see a few", "anchors": ["db.go:222-471", "db_internal.go:122-150", "db_sync.go:50-329", "trie.go:110-211", "time_window.go:154-327", "expiry_window.go:73-148", "leasing.go:160-215", "file.go:212-265"]}
{"id": "C101", "title": "An acknowledged Put is logged although other goroutines run", "statement": "Once a Put of the in-memory store has returned without an error, its record stays readable until an iteration (Sync) has handed it to its caller, and once its time is over and the logs of that time are written, it is in a log file or has been handed over - whatever the write loop, the commit loop, the iteration with Free and other Puts do in between.", "quantifier": "all runs of the goroutines, one step per critical section, in any order, with any times and any reuse of buffers", "why_tests_cant": "the order of steps of four kinds of goroutines; a test sees a few orders and the losing ones need a pause of a goroutine for longer than the time of a block", "anchors": ["memdb/db.go:255-285", "memdb/db.go:367-392", "memdb/block.go:83-113", "memdb/db_internal.go:132-141", "memdb/db_internal.go:259-339", "memdb/tiny_log.go:117-139", "memdb/tiny_log.go:235-238", "memdb/time_mark.go:41-81"]}
{"id": "C102", "title": "Topics added at the same time are all found", "statement": "Goroutines Put messages on new topics at the same time: once a Put has returned, a Get of its topic (without wildcards) finds the topic in the trie, and goes on doing so.", "quantifier": "all sets of topics and all runs of the goroutines, one step per critical section of the trie", "why_tests_cant": "a topic is lost only when two goroutines are between the same two statements for topics with a common new prefix; tests add topics one after the other", "anchors": ["trie.go:117-152", "trie.go:155-186", "mutex.go:25-48", "db.go:380-385"]}
{"id": "C103", "title": "A message keeps its payload after it was read", "statement": "A message that was put and read gives the same payload at every later Get while it is stored, whatever Syncs and Puts to other topics come in between, and whether or not the memory of its old block is used again.", "quantifier": "all sessions of puts, reads, ticks, commits and syncs; all choices of the buffer pool", "why_tests_cant": "needs a read before the Sync that frees the block, a later block that gets the same buffer from the pool, and a read after that", "anchors": ["db_internal.go:196-212", "memdb/db.go:179-256", "memdb/db_internal.go:184-237", "memdb/db_internal.go:314-338", "memdb/block.go:68-80"]}
{"id": "C104", "title": "A Get at the same time as a Sync gives every returned message once", "statement": "Once a Put has returned, every Get of its topic gives its message, and gives it once, whatever other Puts, Gets and a Sync do at the same time; and a Get gives only messages of its topic.", "quantifier": "all runs of Puts, Gets and Syncs, one step per change that other goroutines can see, with any times in the logs and any number of entries in a window block", "why_tests_cant": "the window in memory, the offset in the trie, the window file and the index change at four moments of a Sync; the losing orders need a Get or the end of a time between two of them", "anchors": ["db.go:346-387", "db_internal.go:217-234", "db_sync.go:212-303", "time_window.go:168-330", "time_window_writer.go:36-194", "trie.go:117-152"]}
{"id": "C105", "title": "No map is written while another goroutine uses it", "statement": "However the calls of the database and of the in-memory store (Put, Get, Delete, Sync, batches, expiry, Close, and the loops of the store) are scheduled, no goroutine writes a Go map while another goroutine reads or writes the same map. (If one does, the Go runtime ends the process: the error cannot be recovered from.)", "quantifier": "for every number of goroutines, every list of calls and every path each of them takes, every schedule, and every map of the store, the trie, the window, the expiry window, the files and the free blocks", "why_tests_cant": "Whether two accesses meet depends on the schedule; a test, and the race detector, see only the schedules that happen to occur.", "anchors": ["memdb/db.go:178-256", "memdb/db.go:290-392", "memdb/db_internal.go:153-256", "memdb/time_mark.go:41-100", "trie.go:117-211", "time_window.go:168-327", "expiry_window.go:84-148", "leasing.go:125-205", "file.go:212-262", "db_internal.go:122-150"]}
{"id": "C106", "title": "What Sync has written survives a power failure", "statement": "When Sync has returned without error, the messages it has written are on the disk: if the machine loses power afterwards, they are there when the database is opened again. In the same way the log of a block is on the disk before a batch is acknowledged, and it is removed only when its messages are on the disk.", "quantifier": "for every disk, every sequence of calls with any bytes, and every set of operations that a power failure may lose (those not followed by a flush of a file they touch)", "why_tests_cant": "A test process reads back what it wrote from the cache of the operating system; no test can lose exactly the writes that were not flushed.", "anchors": ["db_sync.go:163-209", "file.go:118-147", "file.go:229-238", "db.go:130", "wal/file.go:67-103", "db_sync.go:286-293", "options.go:58-62", "README.md:54"]}
{"id": "C107", "title": "FileSize is the size of the files", "statement": "FileSize gives the sum of the lengths of the files of the database.", "quantifier": "for every disk and every sequence of calls with any bytes", "why_tests_cant": "A test compares one number for one history, and the sum depends on everything written before; the test of it in the repository is commented out (db_test.go:82).", "anchors": ["db.go:474-477", "file.go:240-250", "db.go:130"]}
{"id": "C108", "title": "A write of a batch returns", "statement": "Every Write (and Commit) of a batch returns: if every goroutine of the store gets its turn again and again, a batch that waits for its log to be written is woken.", "quantifier": "for every capacity of the queue, every infinite schedule in which each goroutine has infinitely many turns, every number of batches and ticks, and every batch", "why_tests_cant": "That nothing waits for ever is a statement about infinite runs; a test sees a finite piece of one schedule, with a disk that is fast enough.", "anchors": ["memdb/batch.go:80-90", "memdb/tiny_log.go:183-245", "memdb/tiny_log.go:248-275", "memdb/tiny_log.go:278-306", "memdb/db_internal.go:299-311", "batch.go:194-231"]}
{"id": "C109", "title": "Close ends the goroutines of the log pool and returns", "statement": "When Close is called, the goroutines of the log pool write what is queued and end, Close returns, and no goroutine panics, whatever batches are being written at the time.", "quantifier": "for every capacity of the queue, every infinite schedule in which each goroutine has infinitely many turns, and every state in which Close is called", "why_tests_cant": "The order in which channels are closed matters only in schedules that a test cannot choose.", "anchors": ["memdb/tiny_log.go:170-198", "memdb/tiny_log.go:202-245", "memdb/tiny_log.go:248-306", "memdb/db_internal.go:82-100", "memdb/batch.go:80-90"]}
{"id": "C110", "title": "Nothing is left in a cluster of a connection that ended", "statement": "When a connection of a node of a cluster has ended, no node keeps a subscription of it, then and ever after: messages are not forwarded to it, and a client that later gets its number is not sent messages it did not subscribe to.", "quantifier": "for every ring of nodes, every history of packets, connects, disconnects and forwarded requests on all nodes, in every order of the goroutines", "why_tests_cant": "Subscriptions left on another node show only when the number of the connection is used again, after a restart of one node in the middle of a run.", "anchors": ["server/internal/cluster.go:264-331", "server/internal/cluster.go:376-441", "server/internal/cluster.go:514-556", "server/internal/conn.go:389-424"]}
{"id": "C111", "title": "The log pool writes each log once and in order", "statement": "The logs handed to the log pool are written at most once and in the order in which they were handed over; when the write of a batch returns its log is written; when Close has returned every log was written, unless it was dropped from a full queue; while the queue is not full none is dropped.", "quantifier": "for every capacity of the queue and every schedule of the goroutines and calls", "why_tests_cant": "Order and loss depend on the interleaving of four goroutines; a test sees a few of them.", "anchors": ["memdb/tiny_log.go:151-198", "memdb/tiny_log.go:202-245", "memdb/tiny_log.go:248-306", "memdb/batch.go:80-90"]}
{"id": "C112", "title": "A connection whose client has left is closed", "statement": "When a client disconnects or is lost, the closing of its connection ends: both loops have returned, its subscriptions are removed, it is out of the cache, and stays so.", "quantifier": "all interleavings of the read loop, the write loop, those who close and any number of publishers", "why_tests_cant": "needs the loops to be stopped between two instructions of the closing", "anchors": ["server/internal/conn.go:389-424 close", "server/internal/hdl_conn.go:45-75 readLoop", "server/internal/hdl_conn.go:271-312 writeLoop"]}
{"id": "C113", "title": "Who publishes to a connection that ends is neither blocked nor crashes the server", "statement": "A publication to a subscriber that is leaving is delivered or dropped; its goroutine ends, and the server goes on.", "quantifier": "all interleavings of a connection that ends with any number of publishers", "why_tests_cant": "needs publications between the end of the write loop and the removal from the cache", "anchors": ["server/internal/conn.go:262-305 publish", "server/internal/conn.go:389-424 close"]}
{"id": "C114", "title": "A relay brings the messages of its span", "statement": "A client that asks for a relay of a topic and a span gets exactly the messages that its contract stored on topics that match, that have not expired and that are not older than the span, the newest first, under the topic it asked for; subscriptions stored in the same database do not show.", "quantifier": "all histories of subscriptions, publications, ticks, commits, syncs and relays, all topics, times and spans", "why_tests_cant": "the messages lie in memory, in the window file and in the block files at once; which entries a lookup skips depends on the times of syncs", "anchors": ["server/internal/hdl_conn.go:349-381 onRelay", "server/internal/store/store.go:152-163 Get", "server/internal/db/unitdb/adapter.go:149-157 Get", "query.go:71-87 WithLast"]}
{"id": "C115", "title": "The server counts its connections and subscriptions", "statement": "At every moment the number of connections the server shows at /varz is the number of connections that are open, and the number of subscriptions is the number of stored subscriptions.", "quantifier": "all runs of the server: connections, packets, broken connections, restarts, in any order, any number of clients", "why_tests_cant": "the counters are changed in several places of the code, one of them only if a first or last subscription is meant, and every path that ends a connection must pass exactly once", "anchors": ["server/internal/monitor.go:119-136 Varz", "server/internal/conn.go:87-88 newConn", "server/internal/conn.go:204-245 subscribe, unsubscribe", "server/internal/conn.go:389-424 close", "server/internal/message/sub.go:94-125"]}
{"id": "C116", "title": "The statistics of a database tell what was done", "statement": "Varz gives the number of messages put, identifiers leased, payloads returned, messages deleted and messages synced since Open; Count is what was synced less what was deleted.", "quantifier": "all histories of calls, batches and syncs", "why_tests_cant": "tests read single counters after single calls", "anchors": ["meter.go:28-42, 142-158", "db.go:296-332, 382", "db_internal.go:321", "db_sync.go:195-204"]}
{"id": "C117", "title": "Messages of a committed batch can be read", "statement": "When Batch returns nil, every message the function put is found by the next Get of a topic it matches, in the order of the puts, together with the messages put before and after, whether or not the function called Write in between.", "quantifier": "all sequences of single puts, batches, Gets and background steps on a new database", "why_tests_cant": "tests commit one batch and read it back once", "anchors": ["batch.go:71-103 PutEntry", "batch.go:195-257 Write, Commit", "db.go:434-460 Batch", "memdb/batch.go:39-131"]}
{"id": "C118", "title": "What a batch has written outlives the process", "statement": "Once Write of a batch returns, the log directory holds exactly the puts since the last Write, next to all it held before; if the process dies at any later time before a Sync, they are there when the store is opened again; and once the batch is committed, its blocks are handed to Sync.", "quantifier": "all reachable stores and all batches with any number of puts and Writes", "why_tests_cant": "no test kills the process after a batch; tests close the store, which writes the logs again", "anchors": ["memdb/batch.go:83-117 Write, Commit", "memdb/db_internal.go:259-297 tinyWrite", "memdb/recovery.go:84-182", "memdb/time_mark.go:41-94"]}
{"id": "C119", "title": "A crash loses only the last messages since the last Open, and none that were in the log", "statement": "If the process dies after an Open that followed a Close, the next Open succeeds; every message sent before that Close is read as if nothing had happened, and of those sent since, a first part in the order of the calls, which has at least every message put before a tick of the log whose write was completed; reads show exactly these.", "quantifier": "all sessions with any number of restarts before, any work after the last one, a crash at any point between two calls, and any queries afterwards", "why_tests_cant": "no test kills the process; which messages are in the log, in memory or in the files at that time depends on the whole history of puts, ticks, writes and syncs", "anchors": ["db.go:50-210 Open", "recovery.go:45-163", "db_internal.go:168-194 loadTrie", "db_sync.go:200-330", "memdb/db_internal.go:259-297 tinyWrite", "memdb/recovery.go:84-182"]}
{"id": "C120", "title": "The uptime shown is the time the database or server has been up", "statement": "The text shown as uptime, read as numbers with the units years, days, hours, minutes and seconds, is the number of whole seconds since the start; units follow each other without gaps down to seconds, the first number is not zero (but for seconds alone) and no number reaches one of the next larger unit. Two times that show the same text are in the same second.", "quantifier": "all durations that are not negative", "why_tests_cant": "a test looks at some durations; the text changes its shape at every unit and every number is the remainder of another division", "anchors": ["meter.go:118-139 uptime", "memdb/meter.go:91-112", "server/internal/monitor.go:95-116"]}
{"id": "C121", "title": "The percentiles shown are times of events of that rank, and all numbers shown are in order", "statement": "P75, P95, P99 and P999 of a snapshot are the times of events among the newest 50; the number of events at or before it in the order of times is the nearest whole number to that part of all. Long5p and Short5p are the means, rounded down, of the longest and the shortest events, 5% of them to the nearest whole number and at least one. Min, Short5p, P50, P75, P95, P99, P999 and Max are in ascending order, and Long5p is between P95 and Max.", "quantifier": "all sequences of added times and resets with at least one time since the last reset; means: times not negative and of a sum below 2^63", "why_tests_cant": "a test looks at a few sets of times; the positions come from float64 products that are rounded twice, and depend on how many events there are", "anchors": ["metrics/sample.go:263-265 p", "metrics/sample.go:280-312 long5p, short5p", "metrics/sample.go:143-158 Snapshot", "metrics/timeseries.go NewTimeSeries"]}
{"id": "C122", "title": "Free space is used again", "statement": "If the space freed by deletions is at least the configured minimum and one of the free ranges is large enough for a new message, the message is written into a free range, the smallest that is large enough, instead of at the end of the file.", "quantifier": "all free lists that come from releases and allocations, and all sizes", "why_tests_cant": "a test deletes and puts messages of one size; whether a range is found depends on the hash of its offset, that of the size and the order of all releases", "anchors": ["leasing.go:115-119 search", "leasing.go:125-158 defrag", "leasing.go:160-206 freeBlock, allocate", "db_internal.go:143 close", "options.go:239-241 WithFreeBlockSize"]}
{"id": "C123", "title": "Options in a topic do not change where a message goes", "statement": "A topic with a question mark and options after it has the parts, the depth, the type and the hash of the topic without them: messages put with options are filed with, and found by queries of, the topic itself.", "quantifier": "every contract, every topic text that is not empty and has no question mark, and every sequence of bytes after the question mark", "why_tests_cant": "a test uses a few well formed options; the bytes after the mark may hold dots, stars and further question marks that mean something in a topic", "anchors": ["message/topic.go:178-192 ParseKey", "message/topic.go:233-296 parseWildcardTopic", "message/topic.go:78-87 GetHash"]}
