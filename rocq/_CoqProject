-Q theories Verif
theories/Base/Base64.v
theories/Base/Bytes.v
theories/Base/Path.v
theories/Model/Accept.v
theories/Model/Activity.v
theories/Model/Addr.v
theories/Model/Answers.v
theories/Model/AutoDetach.v
theories/Model/AutoSave.v
theories/Model/Away.v
theories/Model/Backoff.v
theories/Model/Caps.v
theories/Model/CaseMap.v
theories/Model/ChanCmd.v
theories/Model/ChanView.v
theories/Model/Config.v
theories/Model/Conn.v
theories/Model/Crash.v
theories/Model/Delivery.v
theories/Model/Detach.v
theories/Model/Endpoint.v
theories/Model/ExtAuth.v
theories/Model/Filter.v
theories/Model/FsStore.v
theories/Model/GenMsg.v
theories/Model/Glob.v
theories/Model/Highlight.v
theories/Model/History.v
theories/Model/IPAddr.v
theories/Model/Identd.v
theories/Model/Inactive.v
theories/Model/Isupport.v
theories/Model/Lines.v
theories/Model/Listen.v
theories/Model/LogFiles.v
theories/Model/LogPath.v
theories/Model/MemStore.v
theories/Model/Membership.v
theories/Model/Message.v
theories/Model/Migrate.v
theories/Model/MigrateDb.v
theories/Model/MigrateLogs.v
theories/Model/Modes.v
theories/Model/Monitor.v
theories/Model/MsgID.v
theories/Model/NetView.v
theories/Model/Networks.v
theories/Model/Nick.v
theories/Model/Pending.v
theories/Model/PgInactive.v
theories/Model/Postgres.v
theories/Model/Push.v
theories/Model/Quote.v
theories/Model/RateLimit.v
theories/Model/ReadMarker.v
theories/Model/Register.v
theories/Model/Relay.v
theories/Model/Robust.v
theories/Model/Roster.v
theories/Model/Search.v
theories/Model/Self.v
theories/Model/Service.v
theories/Model/ServiceNick.v
theories/Model/SourceAddr.v
theories/Model/Sql.v
theories/Model/SqlQuery.v
theories/Model/Stop.v
theories/Model/Strip.v
theories/Model/TimeFmt.v
theories/Model/UpReg.v
theories/Model/Upload.v
theories/Model/UploadHttp.v
theories/Model/UserIdent.v
theories/Model/Username.v
theories/Model/ValidText.v
theories/Model/Vapid.v
theories/Model/Wait.v
theories/Model/Whox.v
theories/Model/Words.v
theories/Model/ZncImport.v
theories/Model/ZncLog.v
theories/Proof/Accept.v
theories/Proof/Accounts.v
theories/Proof/Activity.v
theories/Proof/Addr.v
theories/Proof/Answers.v
theories/Proof/AutoDetach.v
theories/Proof/AutoSave.v
theories/Proof/Away.v
theories/Proof/Backoff.v
theories/Proof/Caps.v
theories/Proof/CaseMap.v
theories/Proof/ChanCmd.v
theories/Proof/ChanView.v
theories/Proof/Config.v
theories/Proof/Conn.v
theories/Proof/Crash.v
theories/Proof/Delivery.v
theories/Proof/Detach.v
theories/Proof/Endpoint.v
theories/Proof/ExtAuth.v
theories/Proof/Filter.v
theories/Proof/FsStore.v
theories/Proof/GenMsg.v
theories/Proof/Glob.v
theories/Proof/Highlight.v
theories/Proof/History.v
theories/Proof/IPAddr.v
theories/Proof/Identd.v
theories/Proof/Inactive.v
theories/Proof/Isupport.v
theories/Proof/Lines.v
theories/Proof/Listen.v
theories/Proof/LogFiles.v
theories/Proof/LogPath.v
theories/Proof/MemStore.v
theories/Proof/Membership.v
theories/Proof/Migrate.v
theories/Proof/MigrateDb.v
theories/Proof/MigrateLogs.v
theories/Proof/MigrateSqlite.v
theories/Proof/MigrateWorks.v
theories/Proof/Modes.v
theories/Proof/Monitor.v
theories/Proof/MsgID.v
theories/Proof/NetView.v
theories/Proof/Networks.v
theories/Proof/Nick.v
theories/Proof/Pending.v
theories/Proof/PgInactive.v
theories/Proof/PgWorks.v
theories/Proof/Postgres.v
theories/Proof/Push.v
theories/Proof/Quote.v
theories/Proof/RateLimit.v
theories/Proof/ReadMarker.v
theories/Proof/Register.v
theories/Proof/Relay.v
theories/Proof/Robust.v
theories/Proof/Roster.v
theories/Proof/RosterCache.v
theories/Proof/Search.v
theories/Proof/Self.v
theories/Proof/Service.v
theories/Proof/ServiceNick.v
theories/Proof/SourceAddr.v
theories/Proof/Sql.v
theories/Proof/SqlQuery.v
theories/Proof/SqlStore.v
theories/Proof/Stop.v
theories/Proof/Strip.v
theories/Proof/TimeFmt.v
theories/Proof/UpReg.v
theories/Proof/Upload.v
theories/Proof/UploadHttp.v
theories/Proof/UserIdent.v
theories/Proof/Username.v
theories/Proof/ValidText.v
theories/Proof/Vapid.v
theories/Proof/Wait.v
theories/Proof/Whox.v
theories/Proof/Wire.v
theories/Proof/Words.v
theories/Proof/ZncImport.v
theories/Proof/ZncLog.v
theories/Proof/ZncParse.v
theories/Proof/ZncServer.v
theories/Properties/Accept.v
theories/Properties/Accounts.v
theories/Properties/Activity.v
theories/Properties/Addr.v
theories/Properties/Answers.v
theories/Properties/AutoDetach.v
theories/Properties/AutoSave.v
theories/Properties/Away.v
theories/Properties/Backoff.v
theories/Properties/Caps.v
theories/Properties/CaseMap.v
theories/Properties/ChanCmd.v
theories/Properties/ChanView.v
theories/Properties/Config.v
theories/Properties/Conn.v
theories/Properties/Crash.v
theories/Properties/Delivery.v
theories/Properties/Detach.v
theories/Properties/Endpoint.v
theories/Properties/ExtAuth.v
theories/Properties/Filter.v
theories/Properties/FsStore.v
theories/Properties/GenMsg.v
theories/Properties/Glob.v
theories/Properties/Highlight.v
theories/Properties/History.v
theories/Properties/Identd.v
theories/Properties/Inactive.v
theories/Properties/Isupport.v
theories/Properties/Lines.v
theories/Properties/Listen.v
theories/Properties/LogFiles.v
theories/Properties/LogPath.v
theories/Properties/MemStore.v
theories/Properties/Membership.v
theories/Properties/Migrate.v
theories/Properties/MigrateDb.v
theories/Properties/MigrateLogs.v
theories/Properties/MigrateWorks.v
theories/Properties/Modes.v
theories/Properties/Monitor.v
theories/Properties/MsgID.v
theories/Properties/NetView.v
theories/Properties/Networks.v
theories/Properties/Nick.v
theories/Properties/Pending.v
theories/Properties/PgInactive.v
theories/Properties/PgWorks.v
theories/Properties/Postgres.v
theories/Properties/Push.v
theories/Properties/Quote.v
theories/Properties/RateLimit.v
theories/Properties/ReadMarker.v
theories/Properties/Register.v
theories/Properties/Relay.v
theories/Properties/Robust.v
theories/Properties/Roster.v
theories/Properties/RosterCache.v
theories/Properties/Search.v
theories/Properties/Self.v
theories/Properties/Service.v
theories/Properties/ServiceNick.v
theories/Properties/SourceAddr.v
theories/Properties/Sql.v
theories/Properties/SqlQuery.v
theories/Properties/Stop.v
theories/Properties/Strip.v
theories/Properties/TimeFmt.v
theories/Properties/UpReg.v
theories/Properties/Upload.v
theories/Properties/UploadHttp.v
theories/Properties/UserIdent.v
theories/Properties/Username.v
theories/Properties/ValidText.v
theories/Properties/Vapid.v
theories/Properties/Wait.v
theories/Properties/Whox.v
theories/Properties/Words.v
theories/Properties/ZncImport.v
theories/Properties/ZncLog.v
theories/Spec/Accept.v
theories/Spec/Accounts.v
theories/Spec/Activity.v
theories/Spec/Addr.v
theories/Spec/Answers.v
theories/Spec/AutoDetach.v
theories/Spec/AutoSave.v
theories/Spec/Away.v
theories/Spec/Backoff.v
theories/Spec/Caps.v
theories/Spec/CaseMap.v
theories/Spec/ChanCmd.v
theories/Spec/ChanView.v
theories/Spec/Config.v
theories/Spec/Conn.v
theories/Spec/Crash.v
theories/Spec/Delivery.v
theories/Spec/Detach.v
theories/Spec/Endpoint.v
theories/Spec/ExtAuth.v
theories/Spec/Filter.v
theories/Spec/FsStore.v
theories/Spec/GenMsg.v
theories/Spec/Glob.v
theories/Spec/Highlight.v
theories/Spec/History.v
theories/Spec/IPAddr.v
theories/Spec/Identd.v
theories/Spec/Inactive.v
theories/Spec/Isupport.v
theories/Spec/Lines.v
theories/Spec/Listen.v
theories/Spec/LogFiles.v
theories/Spec/LogPath.v
theories/Spec/MemStore.v
theories/Spec/Membership.v
theories/Spec/Migrate.v
theories/Spec/MigrateDb.v
theories/Spec/MigrateLogs.v
theories/Spec/Modes.v
theories/Spec/Monitor.v
theories/Spec/NetView.v
theories/Spec/Networks.v
theories/Spec/Nick.v
theories/Spec/Pending.v
theories/Spec/PgInactive.v
theories/Spec/Postgres.v
theories/Spec/Push.v
theories/Spec/Quote.v
theories/Spec/RateLimit.v
theories/Spec/ReadMarker.v
theories/Spec/Register.v
theories/Spec/Relay.v
theories/Spec/Robust.v
theories/Spec/Roster.v
theories/Spec/Search.v
theories/Spec/Self.v
theories/Spec/Service.v
theories/Spec/ServiceNick.v
theories/Spec/SourceAddr.v
theories/Spec/Sql.v
theories/Spec/SqlQuery.v
theories/Spec/Stop.v
theories/Spec/Strip.v
theories/Spec/TimeFmt.v
theories/Spec/UpReg.v
theories/Spec/Upload.v
theories/Spec/UploadHttp.v
theories/Spec/UserIdent.v
theories/Spec/ValidText.v
theories/Spec/Vapid.v
theories/Spec/Wait.v
theories/Spec/Whox.v
theories/Spec/Wire.v
theories/Spec/Words.v
theories/Spec/ZncImport.v
theories/Spec/ZncLog.v
