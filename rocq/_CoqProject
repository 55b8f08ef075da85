-Q theories Verif
theories/M_Bytes.v
theories/P_Bytes.v
theories/M_Entry.v
theories/M_DBInfo.v
theories/M_MsgId.v
theories/M_IndexBlock.v
theories/M_WinBlock.v
theories/S_Index.v
theories/P_Codec.v
theories/P_Index.v
theories/P_Float.v
theories/T_Codec.v
theories/M_Hash.v
theories/P_Hash.v
theories/M_Bloom.v
theories/P_Bloom.v
theories/M_Base32.v
theories/P_Base32.v
theories/M_Mac.v
theories/P_Mac.v
theories/T_Basic.v
theories/M_Lease.v
theories/S_Lease.v
theories/P_Lease.v
theories/T_Lease.v
theories/M_File.v
theories/P_File.v
theories/M_BlockRange.v
theories/S_BlockRange.v
theories/P_BlockRange.v
theories/M_BlockStore.v
theories/P_BlockStore.v
theories/P_BlockStore2.v
theories/S_BlockStore.v
theories/P_BlockStore3.v
theories/P_BlockStore4.v
theories/T_BlockStore.v
theories/M_Wal.v
theories/S_Wal.v
theories/P_Wal.v
theories/T_Wal.v
theories/M_Topic.v
theories/M_Trie.v
theories/S_Trie.v
theories/P_Trie.v
theories/P_Topic.v
theories/P_Trie2.v
theories/P_Trie3.v
theories/M_TrieConc.v
theories/P_TrieConc.v
theories/T_Topic.v
theories/M_Query.v
theories/P_Query.v
theories/T_Query.v
theories/M_Wire.v
theories/M_MsgIds.v
theories/M_Subs.v
theories/M_Patricia.v
theories/M_Ring.v
theories/M_Leader.v
theories/S_Server.v
theories/S_Ring.v
theories/S_Leader.v
theories/P_Wire.v
theories/P_MsgIds.v
theories/P_Subs.v
theories/P_Patricia.v
theories/P_Ring.v
theories/P_Leader.v
theories/T_Server.v
theories/M_MemDB.v
theories/S_MemDB.v
theories/P_MemBlock.v
theories/P_MemDB.v
theories/P_MemGet.v
theories/P_MemLog.v
theories/P_MemWal.v
theories/P_MemKeep.v
theories/P_MemReopen.v
theories/P_MemEx.v
theories/T_MemDB.v
theories/M_Window.v
theories/S_Window.v
theories/P_Window.v
theories/P_Window2.v
theories/P_Window3.v
theories/P_Window4.v
theories/P_WinOpen.v
theories/P_WindowEx.v
theories/T_Window.v
theories/M_Get.v
theories/S_Get.v
theories/P_Get.v
theories/M_DB.v
theories/S_DB.v
theories/P_DB.v
theories/P_DBEx.v
theories/T_DB.v
theories/S_Session.v
theories/P_Session.v
theories/P_Session2.v
theories/P_Session3.v
theories/P_Session4.v
theories/P_Times.v
theories/P_Session5.v
theories/P_SessionEx.v
theories/T_Session.v
theories/S_Restart.v
theories/P_Restart.v
theories/P_Restart2.v
theories/P_Restart3.v
theories/P_Restart4.v
theories/P_Restart5.v
theories/P_Restart6.v
theories/P_RestartEx.v
theories/T_Restart.v
theories/M_Consistent.v
theories/S_Consistent.v
theories/P_Consistent.v
theories/T_Consistent.v
theories/M_Lock.v
theories/S_Lock.v
theories/P_Lock.v
theories/T_Lock.v
theories/M_Keys.v
theories/S_Keys.v
theories/P_Keys.v
theories/P_Keys2.v
theories/T_Keys.v
theories/M_Batch.v
theories/S_Batch.v
theories/P_Batch.v
theories/T_Batch.v
theories/S_Only.v
theories/P_Only.v
theories/P_OnlyEx.v
theories/T_Only.v
theories/P_InMem.v
theories/T_InMem.v
theories/S_Number.v
theories/P_Number.v
theories/T_Number.v
theories/M_Expiry.v
theories/S_Expiry.v
theories/P_Expiry.v
theories/P_ExpiryEx.v
theories/T_Expiry.v
theories/S_Count.v
theories/P_Count.v
theories/T_Count.v
theories/S_Again.v
theories/P_Again.v
theories/P_AgainEx.v
theories/T_Again.v
theories/S_Size.v
theories/P_Size.v
theories/P_SizeEx.v
theories/T_Size.v
theories/S_Abort.v
theories/P_Abort.v
theories/P_Torn.v
theories/T_Abort.v
theories/M_Stream.v
theories/M_Sniff.v
theories/M_Stats.v
theories/M_Sample.v
theories/S_Streams.v
theories/P_Stream.v
theories/P_Sniff.v
theories/P_Stats.v
theories/P_Sample.v
theories/T_Streams.v
theories/M_Conn.v
theories/S_Conn.v
theories/P_Conn.v
theories/P_Pending.v
theories/P_Origin.v
theories/P_Forget.v
theories/P_Deliver.v
theories/P_ConnRef.v
theories/T_Conn.v
theories/M_Proto.v
theories/S_Packet.v
theories/S_Wired.v
theories/P_Proto.v
theories/P_Utf8.v
theories/P_Packet.v
theories/P_Wired.v
theories/T_Packet.v
theories/M_Failover.v
theories/S_Failover.v
theories/P_Failover.v
theories/T_Failover.v
theories/M_Route.v
theories/S_Route.v
theories/P_RouteRef.v
theories/P_Client.v
theories/P_Route.v
theories/P_Forward.v
theories/T_Route.v
theories/M_SubStore.v
theories/S_SubStore.v
theories/P_SubStore.v
theories/P_SubFind.v
theories/P_SubEx.v
theories/T_SubStore.v
theories/S_SubLife.v
theories/P_SubLife.v
theories/P_SubLifeEx.v
theories/T_SubLife.v
theories/M_Locks.v
theories/S_Locks.v
theories/P_Locks.v
theories/P_LocksEx.v
theories/T_Locks.v
theories/M_Race.v
theories/S_Race.v
theories/P_Race.v
theories/P_RaceEx.v
theories/T_Race.v
theories/M_TrieRace.v
theories/S_TrieRace.v
theories/P_TrieRace.v
theories/P_TrieRaceEx.v
theories/T_TrieRace.v
theories/M_Live.v
theories/S_Live.v
theories/P_Live.v
theories/P_LiveInv.v
theories/P_LiveStep.v
theories/P_LiveSync.v
theories/P_LiveEx.v
theories/T_Live.v
theories/M_Maps.v
theories/S_Maps.v
theories/P_Maps.v
theories/P_MapsGuard.v
theories/P_MapsEx.v
theories/T_Maps.v
theories/M_Fsync.v
theories/S_Fsync.v
theories/P_Fsync.v
theories/T_Fsync.v
theories/M_Pool.v
theories/S_Pool.v
theories/P_Pool.v
theories/P_PoolLive.v
theories/P_PoolClose.v
theories/P_PoolEx.v
theories/T_Pool.v
theories/P_PoolOrder.v
theories/T_PoolOrder.v
theories/S_Gone.v
theories/P_Gone.v
theories/P_GoneRun.v
theories/P_GoneRef.v
theories/T_Gone.v
theories/S_Deliver.v
theories/P_DeliverAny.v
theories/P_DeliverRef.v
theories/T_Deliver.v
theories/M_Close.v
theories/S_Close.v
theories/P_Close.v
theories/T_Close.v
theories/S_Since.v
theories/S_SinceR.v
theories/P_Since.v
theories/M_Relay.v
theories/S_Relay.v
theories/P_Relay.v
theories/P_SinceEx.v
theories/P_SinceR.v
theories/P_SinceREx.v
theories/T_Since.v
theories/T_SinceR.v
theories/M_Meter.v
theories/S_Meter.v
theories/P_Meter.v
theories/P_Meter2.v
theories/P_MeterEx.v
theories/T_Meter.v
theories/M_Varz.v
theories/S_Varz.v
theories/P_Varz.v
theories/T_Varz.v
theories/S_Batches.v
theories/P_Batches.v
theories/P_Batches2.v
theories/P_Batches3.v
theories/P_BatchesEx.v
theories/T_Batches.v
theories/S_Durable.v
theories/P_Durable.v
theories/P_DurableEx.v
theories/T_Durable.v
theories/S_Crash.v
theories/P_Crash.v
theories/P_Crash2.v
theories/P_Crash3.v
theories/P_CrashEx.v
theories/T_Crash.v
theories/S_CountR.v
theories/P_CountR.v
theories/T_CountR.v
theories/P_Handed.v
theories/P_TopicCut.v
theories/M_Uptime.v
theories/S_Uptime.v
theories/P_Uptime.v
theories/T_Uptime.v
theories/M_Percent.v
theories/S_Percent.v
theories/P_Percent.v
theories/T_Percent.v
theories/S_Options.v
theories/P_QueryText.v
theories/P_Reuse.v
theories/T_Reuse.v
theories/P_Where.v
theories/T_Where.v
