claim('C01', 'proved', ['C01_entry_roundtrip', 'C01_entry_injective', 'C01_entry_onto'],
      'entry.go:109-129; decoding also ignores the bytes that follow the record')
claim('C02', 'partial', ['C02_header_partial', 'C02_refuted'],
      'counters and signature proved; the encryption flag is not kept: written to byte 12, overwritten by the sequence, read from byte 7 (version), so it always reads as 1')
claim('C03', 'proved', ['C03_block_roundtrip', 'C03_lookup', 'C03_lookup_absent'],
      'block.go:71-113, block_reader.go:56-79')
claim('C04', 'partial', ['C04_position_partial', 'C04_same_block', 'C04_float_division', 'C04_refuted'],
      'offsets wrap in int32: proved up to sequence 255*2^19, refuted above; float division proved exact with Flocq')
claim('C05', 'proved', ['C05_window_roundtrip'], 'time_window.go:72-101')
claim('C09', 'proved', ['C09_id_fields', 'C09_id_distinct'], 'message/id.go, uid/uid.go; time range of the 32 bit epoch')
claim('C10', 'proved', ['C10_cutoff', 'C10_cutoff_of_new_id'], 'message/id.go:80-86')
claim('C11', 'proved', ['C11_hash_fold', 'C11_hash_salt'], 'hash/hash.go')
claim('C12', 'proved', ['C12_no_false_negative'], 'filter/bloom.go; any size, any keys, any additions')
claim('C13', 'proved', ['C13_base8', 'C13_base32'], 'encoding/base8.go and base32.go and the server copies')
claim('C14', 'partial', ['C14_roundtrip_partial', 'C14_refuted'],
      'crypto/mac.go over an abstract cipher; inputs below 4 bytes panic, reached by one byte payloads')
claim('C15', 'proved', ['C15_disjoint', 'C15_free_exact', 'C15_allocate_exact'],
      'leasing.go free/allocate over every history of appends, frees of used ranges and allocations; defrag is C16')
claim('C16', 'partial', ['C16_bytes_partial', 'C16_no_touch_partial', 'C16_refuted'],
      'defrag of two touching ranges leaves the second one in the list, so its bytes are handed out twice')
claim('C17', 'partial', ['C17_roundtrip_partial', 'C17_refuted'],
      'a range at offset 0 is dropped when the free list is read back')
claim('C18', 'proved', ['C18_ranges', 'C18_written'], 'block_writer.go:183-289, block numbers below 2^19')
claim('C49', 'proved', ['C49_frame', 'C49_content', 'C49_append'],
      'block_writer.go append/extend/write/reset and block_reader.go over every history of appends, writes, reopening and space given back once; sequence numbers up to 255*(2^19-1)')
claim('C50', 'partial', ['C50_file_partial','C50_memory_partial','C50_topic_partial'], 'From the data file: id, topic and value are those stored. From memory: where it holds what Put packed (C34), the payload is given to the contract of the message and to no other, and the topic of a first message is in front of the value. Topics of about 65500 bytes are left out: sizes are uint16 (C54). That the data file keeps what was stored is C49, and false after deletions (C65).')
claim('C07', 'partial', ['C07_framing_partial', 'C07_refuted'],
      'holds for non-empty records; an empty record is dropped by the writer (wal/writer.go:63-65)')
claim('C08', 'proved', ['C08_all_or_nothing', 'C08_files'], 'the process dies between or within system calls; what was written stays written')
claim('C51', 'partial', ['C51_refuted', 'C51_prefix_partial', 'C51_header_partial'],
      'no fsync and no checksum: missing bytes are read as zeros (wal/file.go:137-148), so a changed record is replayed')

claim('C06','partial',['C06_roundtrip_partial','C06_cut','C06_refuted'],'Round trip proved for every text with fewer than 255 dots; what comes of stored topics cut at any place. Refuted at 256 levels: the depth byte wraps to 0 and only the contract part is read back.')
claim('C19','partial',['C19_found_partial','C19_offset','C19_refuted'],'Proved for histories of plain patterns (first level not "*", fewer than 254 levels, no level hashing to the wildcard value). Refuted for a leading "*": "*.b.d" and "*.b.*.d" parse to the same parts with different depths, and the later put hides the earlier topic.')
claim('C20','partial',['C20_lookup_partial','C20_refuted'],'Exact characterisation of lookup proved for plain patterns and static queries, names compared by hash. Refuted for a leading "*": "*.b" is not found for "a.b" but is found for "b.x".')
claim('C21','partial',['C21_isolation_partial','C21_refuted','C21_contract_refuted'],'Isolation proved up to the 32 bit hash of each level when the topic is filed under its own text. Refuted in general: the topic hash is an XOR of level hashes, so "a.b" and "b.a" share messages. The tree answers across contracts too (contract 857445537 acts as a wildcard); what Get gives is filtered once more by the contract in the identifier, see C64.')
claim('C52','partial',['C52_offset_partial','C52_refuted'],'For all interleavings an added topic has an offset; refuted that it is found by lookup: check and creation of a child are separate critical sections, so one of two new subtrees is lost.')
claim('C38','partial',['C38_limit_partial','C38_last_max_partial','C38_last_number','C38_text','C38_options','C38_among','C38_refuted'],'Limits up to the maximum and the option "last" proved, the latter from the text of the topic, also among other options (C38_text, C38_options, C38_among); without "last" no maximum is applied (query.go:52-81).')
claim('C39','partial',['C39_topic_partial','C39_text_partial','C39_entry_partial','C39_topic_refuted','C39_entry_refuted'],'Durations proved to the second. A plain number is refuted: "?ttl=60" is read as an absolute time in 2101 and WithTTL("60") expires at once.')
claim('C41','proved',['C41_elected_once','C41_leaders_agree','C41_failover'],'cluster_leader.go as a message passing system: any number of nodes, any delay, loss and order of votes and pings; C41_failover adds rings, lost connections and processes that end. Restarts are C53.')
claim('C53','partial',['C41_elected_once','C53_refuted'],'Holds while no node restarts. Term and vote are kept in memory only: a restarted node votes a second time in the same term.')
claim('C42','proved',['C42_owner','C42_same_owner','C42_member','C42_removal','C42_points'],'ringhash.go for any hash function and any correct sort.Sort')
claim('C43','partial',['C43_length_partial','C43_stream','C43_header','C43_refuted'],'Proved below 2^28; longer lengths are written in more than four bytes and never come back (message.go:124-142). Whole message streams proved over an abstract header codec; that of the code is one (C43_header).')
claim('C44','partial',['C44_fresh_partial','C44_wire_partial','C44_type','C44_resumed','C44_hang_refuted','C44_wire_refuted','C44_reset_refuted'],'Refuted: NextID calls itself holding its own lock when it meets a resumed id, and the uint16 id on the wire repeats after 65536 requests.')
claim('C45','partial',['C45_first','C45_last','C45_store_partial','C45_nokey_refuted','C45_failed_refuted'],'Counting proved. Refuted for requests without a key (subscribe makes one up, unsubscribe does not) and after a failed put.')
claim('C46','proved',['C46_prefix','C46_exact'],'patricia.go, every non-empty set of strings')
claim('C34','partial',['C34_lookup','C34_get_partial','C34_refuted','C34_batch_refuted','C34_reuse_refuted'],'Lookup per time block proved for all histories. Get proved without batches, buffer reuse and rewrites in a later block; refuted with each of these: a block kept by the query manager is read before newer ones, a batch block hides later puts, a freed buffer is read again.')
claim('C35','partial',['C35_partial','C35_panic_refuted','C35_refuted','C35_back_refuted'],'Proved for logs in which a key stays in one time block and is not put again after its tombstone. Refuted: a key deleted before its log is written makes Open panic, deleted keys come back when the block of the tombstone is freed, a key put again is lost.')
claim('C22','partial',['C22_lookup','C64_only_partial','C32_window_partial','C63_restart_partial','C22_hidden_refuted','C22_repeated_refuted'],
 'No window lookup returns an expired entry (C22_lookup), and without expired entries every live entry is found (C32_window_partial). In the sessions of C63, where Gets ask for at least as many messages as there are, the answers are the messages not expired, over Syncs and restarts. '
 'Finding: an expired entry makes lookups lose live ones or return them twice, because the lookup restarts or stops at it.')

claim('C23','proved',['C23_limit','C23_given'],'Any state, any choice of Go\'s map orders and slice capacities. With the topic option last the limit is the one of C38.')
claim('C24','partial',['C24_order','C24_found_partial','C24_window_partial','C63_restart_partial','C24_lists_refuted','C24_panic_refuted'],
 'Decreasing order proved for every Get; in the sessions of C63 that is the order in which the messages were put. The newest are kept by the reading loop and by the window file; refuted for entries in memory over several time blocks (map order decides), and Get panics when many entries are older than the cutoff.')
claim('C25','partial',['C25_put','C25_unseen','C25_batch','C25_closed_refuted'],'Proved for Put and PutEntry of a batch. Refuted for a batch on a closed database: no error, messages dropped.')
claim('C26','proved',['C26_delete','C26_batch','C26_history'],'Every state, every history.')
claim('C27','partial',['C27_deleted_partial','C64_only_partial','C27_synced_refuted','C27_others_refuted'],'Proved before the first Sync: the payload of a deleted message is not given again. False otherwise: deletion of a synced message changes neither index nor window file; deletion of an unsynced one leaves its window entry, so Get of the topic fails.')
claim('C28','partial',['C28_session_partial','C28_restart_partial','C28_refuted'],'Proved for sessions of puts, Gets and Syncs, also with any number of restarts: Count is the number of messages Sync and Open have written, as kept by a book of slots, commits and restarts. Otherwise false: counted at sync only, and decremented for identifiers that do not exist.')
claim('C29','partial',['C29_history_partial','C29_writers','C29_refuted'],'Proved for every history without crash or panic, over closes and opens, batches included, and for any interleaving of writers. False after a crash: the sequence in the info file is the one of the last sync.')
claim('C30','partial',['C35_partial','C63_restart_partial','C119_crash_partial','C30_refuted'],'Log replay is C35; recovery of unsynced messages at the Open after a Close is part of C63, after a crash C119. False: recovery is skipped when the info file has sequence 0, i.e. before the first sync.')
claim('C31','partial',['C63_restart_partial','C31_refuted'],'Proved (C63) while no topic has more than 335 messages. Finding: the scan of the window file at open takes the oldest block of a topic, so messages are lost after a reopen once a topic has more than 335.')
claim('C32','partial',['C32_window_partial','C32_cutoff_partial','C32_progress','C63_restart_partial','C32_refuted','C32_first_refuted'],
 'Every entry written to the window file stays reachable from its topic over any number of later syncs, except for the topic that owns block 0 '
 '(C32_refuted, C32_first_refuted). With Get on top of it: C62 and C63, for topics other than that one.')
claim('C33','partial',['C33_unwritten_partial','C33_left_partial','C33_refuted','C33_written_refuted'],'Proved for functions that do not call Write: a failure changes neither files nor tree nor window, so a restart goes on as after a crash without the batch. False: Abort of a managed batch panics, so Batch never returns the error; and after Write a failing batch is replayed from the log at the next Open.')
claim('C54','partial',['C61_session','C54_short_refuted','C54_encrypted','C54_deep_refuted'],'Puts of sessions as in C61 are accepted. False in general: encryption is always on and panics below four bytes (one-byte payloads); topics with about 13100 parts overflow a uint16 slice bound.')
claim('C55','partial',['C55_refuted'],'False: every Batch.Delete encrypts an empty payload and panics.')
claim('C56','partial',['C56_fresh_partial','C56_refuted'],'Proved with a new Query for each Get. False for one Query used twice: the entries found by the first Get are kept in the Query.')
claim('C57','partial',['C57_same_topic_partial','C57_refuted'],'Proved for the topic and contract of the first use, after any session. False for another topic: reset keeps the parsed flag and the topic hash.')
claim('C58','partial',['C58_refuted'],'False: the window keeps both entries.')
claim('C59','partial',['C59_files_partial','C59_restart_partial','C59_refuted'],'Proved for sessions on a new database, also with restarts: every message of a slot that was over and committed is in the files under its own number and readable from them. Otherwise false: after a crash before the first sync every later sync aborts and answers nil.')
claim('C60','partial',['C61_session','C60_refuted','C60_clash_refuted'],'Proved for sessions of topics whose numbers differ (C61). False after a batch: the time block of the batch hides the current one; and for a topic that has the same number as one of another contract.')
claim('C61','proved',['C61_session'],'End to end on the model of the whole database. Assumes what S_Session.setting_ok says about snappy, the cipher and the consistent hash; the clock does not go back.')
claim('C62','partial',['C62_session_partial','C32_first_refuted'],'Proved for all topics but the one that owns block 0 of the window file; Gets of that one give only its own messages but may miss some (C32_first_refuted).')
claim('C36','partial',['C36_open_partial','C36_calls_partial','C36_refuted','C36_unlock_refuted'],'Proved while nobody closes and when calls do not overlap. False in general: unlock removes the name before it closes the file, so a process that opened the old file gets the lock on it while a third one locks a new file.')
claim('C37','partial',['C37_full','C37_working_partial','C37_remove_partial','C37_add_partial','C37_undo_partial','C37_grow_refuted','C37_last_refuted','C37_previous_refuted'],'Proved for tables that are made full and then shrink and grow again. False when a table made with spare places grows first (FindBlock loops for ever), when the last block is removed, and after FindPreviousBlock, which changes the table.')
claim('C40','partial',['C40_keygen','C40_subscribe','C40_scope_partial','C40_publish_partial','C40_publish_scope_partial','C40_length','C40_write_refuted','C40_collision_refuted','C40_short_refuted','C40_panic_refuted'],'Round trip and checks proved for all contracts, topics and key types. False: publishing asks for the right to read, not to write; a key opens every topic of the same hash; keys of short topics do not depend on the contract; a request without key and topic panics. Keys contain no secret, anyone can make them.')
claim('C48','partial',['C48_fields','C48_new','C48_roundtrip','C48_secondary','C48_primary','C48_connect_partial','C48_refused_partial','C48_cache_refuted','C48_forged_refuted'],'Round trip and rights proved, relative to the cipher. False: connecting looks four characters of the text up in a cache before it decrypts, so texts that are no identifiers are accepted for a contract.')
claim('C47','partial',['C47_order_partial','C47_all_partial','C47_batch_size','C47_twice_refuted','C47_full_refuted','C47_stop_refuted','C47_panic_refuted'],'Proved for runs in which the publish loop gets the lock at once, the pool is never full and the connection never times out. False in general: the loop reads an entry of the map before it locks, so a batch that is being pushed is pushed twice; batches are dropped when 27 wait; batches that are not due are lost on close; add after close panics.')
claim('C63','partial',['C63_restart_partial','C63_slot_refuted','C31_refuted','C32_first_refuted'],'Proved for all topics but the one that owns block 0 of the window file, when every Open falls into a later time slot than the last call before the Close, and no topic has more than 335 messages at an Open. False otherwise: an Open in the same time slot recovers and frees the block that new messages go to, so Puts are refused until the next tick; the other two are C31 and C32.')
claim('C64','partial',['C64_only_partial','C63_restart_partial','C64_refuted'],'Proved for every history of puts, deletions and reads in a new database, whatever the topics (also those that share a number), without batches, Sync and Close, with identifiers that come from NewID and are used once; and for sessions without deletions, over Syncs and restarts (C63: what a Get gives was put for the same contract and a matching topic, whatever the topic). False after a deletion and two Syncs (the overwriting of C65): a Get gives a payload nobody put, whose end is the payload of another contract. Deletion of synced messages, see C27.')
claim('C65','partial',['C65_files_partial','C65_refuted'],'Proved: deletion itself changes no file. False: it puts a free block at offset -1 on the free list; a Sync that takes a part of it leaves a free block at the start of the data file, and the next message is written over live ones. Needs a free list above the minimum size (128 MB unless set lower) and sizes of the shard of offset -1; the witness uses the hash of the code for shards and minimum 0.')
claim('C66','partial',['C66_session_partial','C66_restart_partial','C66_topic_partial','C66_query_partial','C66_refuted'],'Proved to the second; C66_session_partial for whole sessions with Puts, wildcards, Gets and Syncs, from messages put to payloads read, in order; C66_restart_partial also with any number of restarts in between, under the conditions of C63. Refuted for the option with a text that is no duration: the error is dropped and the duration is 0, so all messages older than the running second are hidden.')
claim('C67','proved',['C67_number'],'For plain patterns as in C19. The names mix by XOR, so the order of names does not count (C21_refuted).')
claim('C68','proved',['C68_expired','C68_answers'],'The bucket, the job and what a Get adds to the bucket are modelled; the job and the calls do not overlap.')
claim('C69','partial',['C69_taken_partial','C69_refuted'],'Proved for entries in the first part of the bucket, up to the limit of one job. Refuted for the rest: the job looks only at part 0 of 100000 (maxExpDur is used as number of parts), so messages with nearly all times of expiry are never taken.')
claim('C70','partial',['C70_once_partial','C70_refuted'],'Proved when each range is in use and taken once. Refuted in general: every Get puts the expired entries it meets into the bucket again, and a later job releases their space again, though it may hold another message by then; the next Sync writes over that message. The witness uses the hash of the code for both shards.')
claim('C71','partial',['C71_partial','C71_refuted'],'Proved for all histories, batches included, in which no key is put into a block that holds it already. Refuted otherwise: an overwritten key counts once for every put.')
claim('C72','partial',['C72_partial','C72_refuted'],'Proved for all histories without batches in which no key is put into a block that holds it already. Refuted otherwise: the count of a block with an overwritten key never returns to zero, so the block and its log files stay.')
claim('C73','partial',['C73_partial','C73_refuted'],'Proved for Put, Get, Lookup, Delete, Free, Size, the keys of a block and Put of a batch. Refuted for starting a batch, which assigns to a nil map and panics.')
claim('C74','partial',['C74_partial','C74_refuted'],'Proved for every reachable store and every batch whose last act before Abort is a Write. Refuted otherwise: Abort releases only the blocks already written, and what was put after the last Write stays readable. One caller at a time.')
claim('C75','partial',['C75_header_partial','C75_stop_partial','C75_refuted','C75_panic_refuted','C75_value_refuted'],'Proved for logs cut within the 18 bytes of the header, which are passed over, and for logs of which only the header is left, which end the replay. Refuted otherwise: such a log hides the undamaged logs after it, a log cut within its entries makes Open panic, and a log cut within the last value gives back a changed value, since the missing bytes are read as zeros.')
claim('C76','partial',['C76_stream_partial','C76_answer','C76_refuted','C76_chunk_refuted'],'Proved for read buffers of at least one byte and chunks of at least one byte. Refuted otherwise: a read into an empty buffer takes a packet off the stream and drops it, and chunks of size 0 make Write loop for ever. Every SendMsg succeeds.')
claim('C77','partial',['C77_conn_partial','C77_routed_partial','C77_refuted'],'Proved for sources that do not deliver bytes together with an error (TCP does not); routing for matchers of prefixes (MatchWS) followed by MatchAny, as the server has them, and connections without failing reads. Refuted for sources that do: the error is reported with the first of the remembered bytes.')
claim('C78','partial',['C78_packets_partial','C78_refuted'],'Proved: each line belongs to exactly one packet, in order, and each packet is written, queued, counted as lost or refused by the socket. Refuted that all lost packets are counted: one the socket refuses is dropped without being counted. The text of a line is not modelled.')
claim('C79','partial',['C79_snapshot_partial','C79_sums_partial','C79_empty_refuted','C121_empty_refuted','C79_live_refuted'],'Proved for snapshots with at least one time, less than 2^64 additions; sum, average and range for durations that are not negative and whose sum is below 2^63 ns. Refuted: a snapshot without times panics, and the answers of a series itself (not of a snapshot) are about the unsorted ring with its unused places. Percentiles other than the median and the float64 means are not modelled.')
claim('C80','partial',['C80_partial','C80_overwritten_refuted','C80_zero_refuted'],'Proved while the identifier is not used again by any publisher or connection (S_Conn.run_apart) and its subscribers all want reliable delivery. False otherwise: messages are stored under the identifier their publisher chose, so a second publisher with the same identifier replaces the first; and a publication with identifier 0 is announced under one number and stored under another, so asking for it closes the connection.')
claim('C81','partial',['C81_partial','C81_wired_partial','C81_refuted'],'Proved for all runs; the four bytes of a session must not parse as a message (S_Conn.parses_small), which holds for the protobuf encodings (C81_wired_partial). A publication that is fetched is proved to concern some connection of the server only (whose, see C85). False for the other messages in its packet: they come along, whatever their topics, and with the security keys they were published under.')
claim('C82','partial',['C82_partial','C82_bit_refuted','C82_second_refuted','C82_identifier_refuted'],'Proved for sessions whose number has bit 4 clear, from the number the store has for the session key. False otherwise: waiting messages of sessions with bit 4 are deleted; the reconnect stores its own connection number for the key, so the second reconnect does not find the messages; and a session opened with a session key is not found by the identifier of the client (one key is sign-extended, the other not).')
claim('C83','partial',['C83_partial','C83_refuted'],'Proved for reliable messages, while the identifier is not used again. False for messages that are sent at once: they are kept in the log too, no receipt is ever reported for them, and a reconnect announces them.')
claim('C84','partial',['C84_partial','C84_wired_partial','C84_first_refuted','C84_closed_refuted','C84_cluster_refuted'],'Proved: a complete list of causes in the handlers (S_Conn.crash_cause; with the protobuf encodings no session is too short to be read, C84_wired_partial; for the packet reader see C89). False that there are none: one PUBLISH before CONNECT stops the server, and so does a subscriber that disconnects between the lookup of its connection and the delivery. In a cluster a subscription for collected messages that comes from another node stops the owner (C84_cluster_refuted).')
claim('C85','partial',['C85_partial','C85_wired_partial','C85_key_refuted','C85_second_refuted'],'Proved when every connection presents one key, keys are negative as the epochs of identifiers are, and message identifiers are uint16 (S_Conn.calm). It does not mean that the session is one of the same client: a session key is not bound to a client, and identifiers made in the same second have the same key.')
claim('C86','partial',['C86_partial','C86_any_partial','C86_refuted'],'C86_partial: publications of one message with an identifier other than 0, run to the end before other events; all is sent and acknowledged. C86_any_partial: publications of any number of messages, with any other events while they are delivered; what is required is that no goroutine panics (C84), that the subscriber is there and not stuck until its goroutine is done, and that it sends no second CONNECT (which throws its batch away). False of modes above 2, which the server accepts: C86_refuted, an acknowledged publication that is sent to nobody.')
claim('C87','partial',['C87_partial','C87_refuted'],'Proved for immediate deliveries when the goroutines of the first publication are done before the packet of the second is handled, with any other events in between and of any number of messages. False otherwise: every message has a goroutine of its own, and two packets one after the other can arrive the other way round.')
claim('C88','partial',['C88_partial','C88_rest_partial','C88_strings_partial','C88_connack','C88_ping_refuted','C88_after_ping_refuted','C88_disconnect_refuted','C88_string_refuted'],'Proved for packets up to 2^31 bytes whose strings are UTF-8 (S_Packet.sent, written); IsForwarded is not part of the encoding. False: the acknowledgement of a ping is read as a ping (with an identifier in it the stream is out of step afterwards), the identifier of a DISCONNECT is not written, and packets with other strings cannot be written.')
claim('C89','partial',['C89_partial','C89_short_partial','C89_refuted'],'Proved for streams of packets that break off, and for any input shorter than seven bytes. False for all bytes: a header with a negative length makes the reader panic, outside any recover, so nine bytes of any client stop the server.')
claim('C90','partial',['C90_partial','C90_pings_partial','C90_refuted'],'Proved: while one node leads, a node that took two pings about the ring of the leader agrees with it on every owner (the digest of the ring must not clash). False beyond that: rehash(ping.Nodes) does not update fo.activeNodes, so a follower that becomes leader sends a list that is not its ring, and a node that was given up and came back never agrees; requests it forwards are refused.')
claim('C91','partial',['C91_partial','C91_leader_refuted','C91_refuted'],'Proved while nobody is stopped and every call is answered. False otherwise, the case failover exists for: ClusterNode.call logs a failed call with Fatal, which ends the process, so one stopped node takes down the leader (pings) and every node that forwards to it, in a cluster of any size.')
claim('C92','partial',['C92_owner_partial','C92_forward_partial','C92_refuted','C92_reliable_refuted','C92_twice_refuted','C92_insecure_refuted'],'Proved: if every client connects to the owner of its contract each node works like a server on its own (then C80-C86 apply); a publication at another node reaches that node and the subscribers known to the owner (one message per packet, the two goroutines run alone). False in general: the first SUBSCRIBE of a key is not forwarded (the condition in subscribe is the wrong way round), publications for proxied connections are never written, the message behind a forwarded NOTIFY is in the log of the other node, and a packet of k messages is forwarded k times. A proxied connection always needs keys, so what a client that connected without the need of keys publishes at another node does not reach the subscribers of the owner, and is acknowledged.')
claim('C93','partial',['C93_partial','C93_refuted'],'Proved for all runs in which no two nodes give out the same connection number. False otherwise: Master looks the connection up by number only, and if a client of its own has that number, it gives it the identifier of the other client; from then on that client reads and writes under the contract of the other.')
claim('C94','partial',['C94_partial','C94_refuted','C94_dies_refuted','C94_restart_refuted'],'Proved for a new database before its first Sync, for any topics, if no message is stored under a contract that differs from a subscribing one by connStoreId. False otherwise: subscriptions are filed under contract xor connStoreId in the same database as messages, so nine bytes published under that contract are a subscription of any connection, and fewer bytes panic the next publish. After a restart the connection numbers of the old process are still subscribed.')
claim('C95','partial',['C95_partial','C95_refuted','C95_others_refuted'],'Proved before the first Sync: whoever unsubscribed is reached no more. False after it: DeleteEntry does not remove a synced message (C27). And before it the removed entry makes the Get of the topic fail, so publish returns with an error and reaches none of the remaining subscribers.')
claim('C96','partial',['C96_found_partial','C96_limit_refuted','C96_sync_refuted','C96_options_refuted'],'Proved without unsubscribing, in a new database with up to the default query limit of subscribers and topics without options, also across Sync for all topics but the first (C32). False otherwise: at most 1000 subscribers are reached in any state; the second Sync loses those of the first topic; "?last=" in the topic of a publication chooses among the subscribers.')
claim('C97','partial',['C97_partial','C95_others_refuted'],'Proved for the connections of the server over a store that deletes what it is asked to, for all runs with fewer than 2^64 requests for subscriptions. The database does not do so: see C95.')
claim('C98','partial',['C98_partial','C98_contract_refuted','C98_restart_refuted'],'Proved for a connection whose number no stored subscription has, that connects under one contract, between restarts, with fewer than 2^32-1 connections accepted meanwhile. False when it connects again under another contract (its subscriptions under the first stay) and after a restart (the subscriptions stay and go to the new connection with that number). The store is taken to delete what it is asked to, see C95.')
claim('C99','partial',['C99_partial','C99_size_refuted','C99_keys_refuted'],'Proved for every set of calls without Keys and Size, by a ranking of the locks. False with them: they read lock the blocks inside the lock of the store, while Put takes the lock of the store inside that of its block, so the two can wait for each other for ever (and every later call behind them). The database does not call Keys and Size. Waiting on channels is not part of the model.')
claim('C100','partial',['C100_partial','C100_close_partial','C100_close_refuted'],'Proved for every set of calls without Close; with Close, only calls of Sync and the expirer (and a second Close past its flag) can be left waiting. False for those: Close keeps the lock of Sync, and Sync does not look whether the database is closed, so a Sync after Close never returns. Waiting on channels other than syncLockC and on wait groups is not part of the model.')
claim('C101','partial',['C101_partial','C101_refuted','C101_lost_refuted'],'Proved for a Put that writes its record while the time it has read is still current. False for one that is slower: Put reads the time and looks up its block without holding anything, so the last log of that time can be written before the record is (it is then in memory only, and a crash loses it), or the block can be freed between the reading of its keys and Free: the Put returns without an error and the record is nowhere. The model has one record per Put and no deletions; a full log queue, which drops logs, is part of M_MemDB and not of this model.')
claim('C102','partial',['C102_partial','C102_serial_partial','C102_refuted'],'Proved unless a node on the path was replaced, and without condition for one mutex. False in general: add looks for a child under the read lock, and sets a new one under the write lock without looking again; the mutex it holds is only that of the shard of the topic. So two new topics with a common prefix can lose one of them: its Put returns, Get does not find it, and later Puts on it do not repair that, as the topic is in the summary map. It comes back when the database is opened again.')
claim('C103','partial',['C62_session_partial','C103_refuted','C103_panic_refuted'],'Proved (C62_session_partial, for all topics but one) while the pool hands out new buffers only. False otherwise: Get of the in-memory store keeps the blocks it has read from in the query manager and looks there first, also after Sync has freed the block and given its buffer back. When a later block gets this buffer, Get of the old message gives the payload of a message of another topic (of the same contract), or reads a length that makes it panic.')
claim('C104','partial',['C104_partial','C104_only_partial','C104_twice_refuted','C104_miss_refuted','C104_hidden_refuted','C104_stays_refuted','C104_abort_refuted'],'Proved, for runs in which no time ends inside a Put nor between the first two statements of Sync: a Get without interruption gives every returned message unless Sync is between its first change of an offset and its write of the window, and gives it once unless Sync is between this write and the release of the entries; any Get gives messages of its topic only. False elsewhere: a Get during Sync gives a message twice, or misses it (offset read before, memory read after), or misses all messages of the topic that are on disk (offset of a block not yet written). If a time ends between the two first statements of Sync, a message stays twice in its topic. If a time ends inside the first Put of a topic, Sync fails after it has changed the offsets of other topics, which then lose all their messages to the block of another topic.')
claim('C105','partial',['C105_locks','C105_partial','C105_query_partial','C105_lease_partial','C105_summary_partial','C105_get_refuted','C105_again_refuted','C105_put_refuted','C105_close_refuted'],'Proved for all maps but three kinds, whatever the calls. False for these: Get writes the maps of the query manager of memdb without any lock, so two Gets at the same time can end the process (proved for one Get at a time); Put reads the summary of the trie without the lock under which another Put writes it (proved when the new topics are of one shard of the locks); Close merges the free blocks without their locks (proved while nobody closes the database).')
claim('C106','partial',['C106_partial','C106_file','C106_refuted','C106_any_refuted','C106_log_refuted'],'Proved of sync for a file set as newFile makes it: its files are flushed. False of the database: sync goes over the map of the file set, and Open makes the file set with a list and no map (db.go:130), so no file is ever flushed, and the log is not flushed either (wal/file.go has no Sync). After any calls the disk may be as it was before them; Sync can even lose a message whose log was on the disk, as it removes the log. Lost operations: any that is not followed by a flush of a file it touches (S_Fsync)')
claim('C107','partial',['C107_partial','C107_refuted'],'Proved of size for a file set as newFile makes it. False of the database: the map it goes over is empty (as in C106), so FileSize is always 0')
claim('C108','partial',['C108_partial','C108_else_partial','C108_refuted'],'Proved while the log queue is never full and Close is not called; in any case a Write that waits returns, or its log was dropped, or the process panicked. False in general, for every capacity: when the commit loop is slow and the queue of 27 logs is full, the dispatcher drops the log (tiny_log.go:264-268), its doneChan is never closed, and the Write waits for ever')
claim('C109','partial',['C109_partial','C109_else_partial','C109_after_refuted','C109_refuted'],'Proved without batches: Close returns. With batches: Close returns or a goroutine panics. The panic is possible: Write of a batch does not check whether the store is closed and sends on the closed queue; one that waits to send when the queue is closed panics too')
claim('C110','partial',['C110_partial','C110_refuted'],'Proved for clusters whose nodes keep running, with numbers of connections that are apart and not reused, one contract per connection, once the owner of the contract was told (as closing does): no node has a subscription of the connection any more, also when goroutines of it still forward messages. False when the node of the connection stops: nobody tells the owner, the subscription stays, and whoever gets the number is notified of the messages, even a client of another contract')
claim('C111','proved',['C111_order','C111_returned','C111_closed','C111_kept'],'For every capacity and every run, also those with panics')
claim('C112','partial',['C112_partial','C112_stuck_partial','C112_ended','C112_refuted','C112_open_refuted'],'Proved: once the read loop has returned (the connection is lost, or the client closed it), every fair run ends the closing, whoever publishes to the connection meanwhile; what has ended stays so; the only way to be stuck is a read loop that waits for room in the send channel after the write loop has returned. False in general: that state is reached with PINGREQ, DISCONNECT, PINGREQ of one client, and then the subscriptions and the connection stay for ever. And the closing waits for the client to close its socket: for gRPC and WebSocket connections there is no deadline (C112_open_refuted).')
claim('C113','partial',['C113_partial','C113_after_partial','C113_panic_partial','C113_refuted','C113_crash_refuted'],'Proved: while the write loop runs a reliable publication gets its room; after the end nobody gets the connection; the loops and the closing themselves never panic (no channel is closed twice). False: after the write loop has returned and before the connection leaves the cache, publications wait, for ever if the closing is stuck (C112), and all of them panic when the closing closes the channel; a client that sends DISCONNECT and closes its socket a little later is enough.')
claim('C114','partial',['C114_partial','C114_refuted','C114_limit_refuted'],'Proved for whole histories of subscriptions, publications, ticks and syncs, for spans that time.ParseDuration reads and at most 1000 matching messages, except for the topic of C32. False: a span such as "1d" is no duration and brings back messages of any age; of more than 1000 messages some are left out without a sign. The checks of the request (lines 353-363) are those of C40 and C81; sending the batch is C47.')
claim('C115','partial',['C115_conns_partial','C115_partial','C115_refuted','C115_contract_refuted','C115_restart_refuted'],'Proved for all runs of the server: "connections" is the number of open connections (up to 2^32 connections accepted, also over restarts); "subscriptions" is the number of stored subscriptions if the store takes every subscription, no connection changes its contract and the server is not restarted. False otherwise: a subscription the store refuses is taken off the counter when the connection ends, which shows -1; after a second CONNECT under another contract, and after a restart, subscriptions stay stored that are not counted. in_msgs, out_msgs and their bytes and the timings are not modelled; nor a close that never ends (C112). The store is that of M_Conn: a deletion removes what it names (of the real one see C95).')
claim('C116','partial',['C116_calls_partial','C116_synced_partial','C116_block_partial','C116_batch_refuted','C116_error_refuted','C116_deleted_refuted','C116_aborted_refuted'],'Proved: Puts, Leases, Gets and OutMsgs from any state and for any calls; InMsgs, Syncs and Count for sessions as in C28 (modulo 2^64). False: messages of batches are not counted, nor payloads given together with an error; deletions of identifiers that do not exist are counted; Syncs that are undone count nothing, not even Aborts, but lower Count. The counters of bytes are not modelled.')
claim('C117','partial',['C117_session_partial','C117_synced_partial','C60_refuted','C32_first_refuted','C117_handed'],'Proved for sessions on a new database in which a single put waits for a slot that begins after the last batch, without deletions; with Sync for all topics but the one of C32. For every state, a committed batch of puts hands every block with something in it to Sync (C117_handed). False otherwise: a put in the slot of a batch cannot be read (C60_refuted).')
claim('C118','partial',['C118_log','C118_crash_partial','C118_synced','C118_refuted'],'Proved for the in-memory store: what the log directory holds after any batch on any reachable store, that its blocks are handed to Sync, and what Get answers when the store is opened after a crash, for logs as in C35. False for a database that was never synced: it does not look at the logs when it is opened (as C30_refuted).')
claim('C119','partial',['C119_crash_partial','C119_first_refuted','C119_after_refuted'],'Proved for crashes between two calls after at least one message, Close and Open, with queries only after the crash; all topics but the one of C32, restrictions on Opens as in C63. False otherwise: in the first session of a database a crash loses also what is in the log; and a message put after the crash takes the number of a recovered one, which is lost, while the new one is read twice. A crash within a write is not modelled here.')
claim('C120','proved',['C120_uptime','C120_tells'],'The three copies of the function are the same. That start is the time of Open (or of the start of the service) and that fmt prints a Duration with %d as a number are taken from the sources of Go and not modelled.')
claim('C121','proved',['C121_percentiles','C121_ends','C121_order'],'For the sample of 50 times that NewTimeSeries makes. float64 is SpecFloat of the standard library, with the product rounded before the sum (Go may fuse them on other processors than amd64). Without any time the answers panic (C121_empty_refuted); the meters add one when they are made. HMean and StdDev are not modelled.')
claim('C122','partial',['C122_found_partial','C122_defrag_partial','C122_refuted'],'Proved for the part of the free list in which the size is looked for, if it is in the order of sizes, and so after a defragmentation (which only Close does) without touching ranges. False otherwise, with the shards of the code and the default minimum: a released range is kept in the shard of its offset, but looked for in the shard of the size (leasing.go:160-206), so that with a single free range of exactly the size wanted nothing is found; and within a shard the binary search fails, since releases are appended without regard to the order.')
claim('C123','proved',['C123_parts','C123_hash'],'For every topic text before the mark that is not empty; with none the options are taken for the topic (example).')
