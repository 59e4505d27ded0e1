{"id": "C01", "title": "IRC case mappings are equivalences of increasing coarseness", "statement": "Each of the three case mappings (ascii, rfc1459-strict, rfc1459) is idempotent, never changes the length of a name, and maps two names to the same canonical form exactly when they are byte-wise equal up to the pairs the mapping's specification identifies. Any two names identified by ascii are identified by rfc1459-strict, and any two identified by rfc1459-strict are identified by rfc1459.", "quantifier": "all byte strings and all pairs of byte strings", "why_tests_cant": "The domain is every byte string; a table of examples cannot show that no byte outside the listed pairs is folded.", "anchors": ["xirc/casemapping.go:CaseMappingASCII", "xirc/casemapping.go:CaseMappingRFC1459", "xirc/casemapping.go:CaseMappingRFC1459Strict", "xirc/casemapping.go:ParseCaseMapping"]}
{"id": "C02", "title": "A case-mapped map behaves like a map keyed by equivalence classes", "statement": "After any history of Set/Del calls, Get/Has of a name returns the value of the last Set of an equivalent name that no later Del removed, no two stored entries have equivalent names, Len is the number of distinct classes present, and each entry keeps the spelling given by the Set that created it.", "quantifier": "all sequences of Set/Del/Get/Has/Len, all names, all three case mappings", "why_tests_cant": "Histories are unbounded and the failure (a duplicate under another spelling) depends on the order of operations.", "anchors": ["xirc/casemapping.go:CaseMappingMap"]}
{"id": "C03", "title": "Changing the case mapping of a map keeps its entries", "statement": "SetCaseMapping(f) keeps every (spelling, value) entry whose spelling is not identified by f with another entry's spelling; entries whose spellings collide under f collapse to exactly one of the colliding entries; afterwards lookups use f.", "quantifier": "all maps, all old and new case mappings, all iteration orders of the Go map", "why_tests_cant": "Go map iteration order is random; only a proof covers every order and every key set.", "anchors": ["xirc/casemapping.go:SetCaseMapping"]}
{"id": "C04", "title": "Membership sets are duplicate-free sets ordered by rank", "statement": "Starting from the empty set, after any sequence of Add/Remove of memberships the network advertises, a member's status list contains a status iff it was added and not removed since, contains no duplicates, and lists statuses from highest to lowest rank as advertised by the network.", "quantifier": "all advertised PREFIX tables without duplicates, all Add/Remove sequences", "why_tests_cant": "Sequences and PREFIX tables are unbounded.", "anchors": ["xirc/xirc.go:MembershipSet.Add", "xirc/xirc.go:MembershipSet.Remove"]}
{"id": "C05", "title": "Member prefixes shown to a client are the member's real statuses", "statement": "The prefix sent to a client that negotiated multi-prefix lists exactly the member's statuses in rank order; otherwise it is exactly the highest ranked status (or nothing). Parsing a NAMES entry formatted this way gives back the same statuses and the same nick, provided the nick does not itself begin with a status symbol.", "quantifier": "all PREFIX tables, all status sets, all nicks", "why_tests_cant": "The PREFIX table is chosen by the remote server.", "anchors": ["xirc/xirc.go:MembershipSet.Format", "upstream.go:parseMembershipPrefix", "downstream.go:formatMemberPrefix"]}
{"id": "C06", "title": "User mode changes have set semantics", "statement": "Applying a mode string to a user's modes yields exactly the set obtained by processing its letters left to right with the last seen sign, never creates duplicates, and reports an error exactly when a letter precedes any sign.", "quantifier": "all starting mode sets and all mode strings", "why_tests_cant": "Mode strings are unbounded and remote controlled.", "anchors": ["irc.go:userModes"]}
{"id": "C07", "title": "A channel mode snapshot can be re-applied without change", "statement": "Formatting the tracked modes of a channel (as sent in RPL_CHANNELMODEIS) and applying the result to a channel without modes under the same CHANMODES/PREFIX tables reproduces exactly the tracked modes, whatever order the map is iterated in.", "quantifier": "all mode tables, all tracked mode maps consistent with them, all iteration orders", "why_tests_cant": "Go map iteration order is random and mode tables are remote controlled.", "anchors": ["irc.go:channelModes.Format", "irc.go:applyChannelModes"]}
{"id": "C08", "title": "Generated JOIN commands pair every channel with its own key", "statement": "The JOIN messages generated for a list of channels and keys, read the way an IRC server reads them (i-th key belongs to the i-th channel), join each channel exactly once with its own key, keyed channels precede keyless ones in every message, and no message but one holding a single channel exceeds the length budget.", "quantifier": "all channel/key lists (no commas or spaces in names), all sort implementations", "why_tests_cant": "Pairing goes wrong only for particular mixes of lengths and keys around message boundaries.", "anchors": ["xirc/genmsg.go:GenerateJoin", "xirc/genmsg.go:joinSorter"]}
{"id": "C09", "title": "Generated MONITOR commands list every target once, in order", "statement": "Concatenating the target lists of the generated MONITOR messages gives exactly the requested targets in order, and every message fits the protocol line length including CRLF.", "quantifier": "all target lists, both subcommands", "why_tests_cant": "The boundary conditions depend on the accumulated length.", "anchors": ["xirc/genmsg.go:GenerateMonitor"]}
{"id": "C10", "title": "RPL_ISUPPORT announces every token exactly once, at most thirteen per line", "statement": "The generated RPL_ISUPPORT messages contain, in order and exactly once, all tokens, each message has between 1 and 13 tokens, and each message ends with the human readable text.", "quantifier": "all token lists", "why_tests_cant": "Unbounded lists.", "anchors": ["xirc/genmsg.go:GenerateIsupport"]}
{"id": "C11", "title": "SASL payloads survive chunking", "statement": "A SASL response split into AUTHENTICATE messages by the bouncer and reassembled by the bouncer's own receiving side (or any receiver following the SASL chunking rule) is recovered exactly: every chunk has at most 400 bytes, only the last is shorter than 400, an empty payload is sent as '+', and payloads of exactly a multiple of 400 encoded bytes are terminated by '+'.", "quantifier": "all byte strings up to the receiver's size limit", "why_tests_cant": "Off-by-one errors occur at every multiple of 400 encoded bytes.", "anchors": ["xirc/genmsg.go:GenerateSASL", "downstream.go:handleAuthenticate"]}
{"id": "C12", "title": "WHOX replies round-trip", "statement": "A RPL_WHOSPCRPL generated for a field set and parsed with the same field set yields the same information for every requested field, up to the documented normalisation of missing values, whatever order the fields were requested in.", "quantifier": "all field sets and all field values without spaces", "why_tests_cant": "2^n field subsets times arbitrary values.", "anchors": ["xirc/whox.go:GenerateWHOXReply", "xirc/whox.go:ParseWHOXReply", "xirc/whox.go:ParseWHOXOptions"]}
{"id": "C13", "title": "In-memory history returns exactly the most recent messages after a point", "statement": "For any history of appends to a target, loading with limit n after a message ID returns the last min(n, capacity, number of messages after that ID) messages appended after it, oldest first, with no gap; other targets and networks have no influence.", "quantifier": "all append histories over all (network, target) pairs, all limits, all earlier message IDs", "why_tests_cant": "The ring buffer wraps; errors appear only for particular residues.", "anchors": ["msgstore/memory.go:messageRingBuffer", "msgstore/memory.go:memoryMessageStore"]}
{"id": "C14", "title": "A message appended after LastMsgID is in the backlog taken from that ID", "statement": "If a client's position is recorded with LastMsgID and messages are then appended to the target, loading the history after the recorded position returns all of them (up to the limit and the buffer capacity).", "quantifier": "all append histories before and after the position is recorded", "why_tests_cant": "Needs a history where the target already has messages; unit tests start from an empty buffer.", "anchors": ["msgstore/memory.go:LastMsgID", "msgstore/memory.go:LoadLatestID", "user.go:deliveredStore"]}
{"id": "C15", "title": "Message IDs decode to what was encoded", "statement": "Parsing a generated message ID gives back the network ID, the target and the store-specific position; two different (network, target, position) triples never get the same ID; IDs of another store type or version are rejected.", "quantifier": "all network IDs (64-bit), all positions (64-bit), all targets that are valid strings for the encoding library, all version numbers", "why_tests_cant": "Infinite domain; injectivity is a statement about all pairs.", "anchors": ["msgstore/msgstore.go:formatMsgID", "msgstore/msgstore.go:ParseMsgID"]}
{"id": "C16", "title": "Log paths stay below the log directory and separate targets", "statement": "The log file of any user, network and target lies below the configured root and never escapes it through '/', '.' or '..'; distinct targets of a network use distinct directories.", "quantifier": "all user, network and target names", "why_tests_cant": "Traversal strings are adversarial; distinctness quantifies over pairs.", "anchors": ["msgstore/znclog/writer.go:EscapeFilename", "msgstore/fs.go:logPath"]}
{"id": "C17", "title": "Log lines parse back to the logged message", "statement": "A PRIVMSG, NOTICE or CTCP ACTION written to a log file and read back yields the same command, sender nick, target, text and time of day.", "quantifier": "all senders and texts without line terminators, all times", "why_tests_cant": "Texts are arbitrary and may look like other log lines.", "anchors": ["msgstore/znclog/writer.go:MarshalLine", "msgstore/znclog/reader.go:UnmarshalLine"]}
{"id": "C18", "title": "File history queries return exactly the requested window", "statement": "Loading history before or after a time from the file store returns exactly the logged messages strictly inside the requested window, in chronological order, the closest ones to the reference point first when limited, and never more than the limit.", "quantifier": "all logs, all windows, all limits", "why_tests_cant": "Day boundaries, empty days and ring wrap-around interact.", "anchors": ["msgstore/fs.go:getBeforeTime", "msgstore/fs.go:getAfterTime", "msgstore/fs.go:parseMessagesBefore", "msgstore/fs.go:parseMessagesAfter"]}
{"id": "C19", "title": "Stripping formatting removes exactly formatting", "statement": "The searchable text of a message contains no formatting control byte, is a subsequence of the message text, equals the text when it has no formatting byte, and stripping twice is the same as stripping once.", "quantifier": "all byte strings", "why_tests_cant": "Truncated colour codes at any position.", "anchors": ["database/utils.go:stripANSI"]}
{"id": "C20", "title": "Login names decode to user, network and client", "statement": "A login name built as user/network@client or user@client/network (network and client optional) decodes to exactly those three parts, for all parts without '/' and '@'.", "quantifier": "all part values", "why_tests_cant": "Infinite domain.", "anchors": ["downstream.go:unmarshalUsername"]}
{"id": "C21", "title": "Capability negotiation keeps enabled within available", "statement": "At every point of every exchange the client's enabled capabilities are a subset of the advertised ones. A CAP REQ is all-or-nothing: it is refused with nothing changed exactly if one of its changes is not permitted, and otherwise it is acknowledged, every named capability is in the requested state and no other one changed (for requests that do not name a capability with both signs). cap-notify cannot be disabled by a 302 client.", "quantifier": "all sequences of CAP commands, registrations and changes of the advertised set", "why_tests_cant": "Unbounded interleavings of negotiation and upstream capability changes.", "anchors": ["downstream.go:handleCapCommand", "downstream.go:setSupportedCap", "downstream.go:unsetSupportedCap", "xirc/caps.go:CapRegistry"]}
{"id": "C22", "title": "Clients receive only what they negotiated", "statement": "Every message delivered to a client carries a tag or is a command gated by a capability only if the client enabled that capability, and the rest of the message is unchanged.", "quantifier": "all messages, all capability states", "why_tests_cant": "Every combination of tags and capabilities.", "anchors": ["downstream.go:SendMessage"]}
{"id": "C23", "title": "No client is registered without successful authentication", "statement": "A client reaches the registered state, and is bound to a user, only if the authenticator accepted credentials for that user earlier in the same connection (or for an admin user that impersonates an existing user).", "quantifier": "all message sequences, all authenticator behaviours", "why_tests_cant": "All interleavings of PASS, AUTHENTICATE, CAP, NICK, USER and BOUNCER.", "anchors": ["downstream.go:register", "downstream.go:authenticate", "downstream.go:handleAuthenticate", "downstream.go:runUntilRegistered"]}
{"id": "C24", "title": "Queries to the server are serialised and answered to the right client", "statement": "For each kind of query (LIST, WHO, ...) at most one is outstanding on an upstream connection, queries are sent in the order they were enqueued, each reply stream goes to the client whose query was sent, cancelling a client's queries never disturbs another client's, and after disconnection every waiting client is answered exactly once.", "quantifier": "all interleavings of enqueue, reply, cancel and disconnect without timeouts", "why_tests_cant": "Concurrent clients; the interleavings are unbounded.", "anchors": ["upstream.go:enqueueCommand", "upstream.go:dequeueCommand", "upstream.go:currentPendingCommand", "upstream.go:cancelPendingCommandsByDownstreamID", "upstream.go:abortPendingCommands"]}
{"id": "C25", "title": "A stale pending query does not block or duplicate later ones", "statement": "When the outstanding query has timed out, enqueuing another query discards only the stale one; every other waiting query is still sent exactly once, in order.", "quantifier": "all queues with a stale head", "why_tests_cant": "Requires a 30 second stall with more than one waiting client.", "anchors": ["upstream.go:enqueueCommand"]}
{"id": "C26", "title": "Labels identify the issuing client", "statement": "The label attached to a labelled upstream command identifies exactly the downstream connection that issued it: decoding gives back the ID, distinct commands get distinct labels, and unlabelled or foreign labels route to no specific client.", "quantifier": "all downstream IDs and label counters", "why_tests_cant": "Infinite domain.", "anchors": ["upstream.go:SendMessageLabeled", "upstream.go:handleMessage"]}
{"id": "C27", "title": "Detached channels stay silent", "statement": "A message for a detached channel is never forwarded on that channel; it is relayed as a service notice only if the channel's relay filter admits it, and re-attaches the channel only if the reattach filter admits it.", "quantifier": "all channel settings, messages and filters", "why_tests_cant": "Four filters with inherited defaults and highlight detection.", "anchors": ["user.go:attach", "user.go:detach", "upstream.go:handleDetachedMessage", "upstream.go:produce"]}
{"id": "C28", "title": "Bouncer clients lose no message and see none twice across reconnections", "statement": "For a client name, the concatenation of live deliveries and backlog replays of a target over any history of connects, disconnects and incoming messages contains each message logged since the client's first connection exactly once and in order.", "quantifier": "all histories of connects, disconnects and messages, several clients", "why_tests_cant": "Unbounded histories; the delivery pointer is updated on disconnect.", "anchors": ["user.go:deliveredStore", "downstream.go:welcome", "downstream.go:sendTargetBacklog", "downstream.go:ackMsgID"]}
{"id": "C29", "title": "Read markers only move forward", "statement": "The read marker reported for a target never decreases over any sequence of MARKREAD commands, equals the maximum of the accepted timestamps and the initial value, never exceeds the time of the command that set it, and every other client of the network is told of each advance.", "quantifier": "all MARKREAD sequences from all clients", "why_tests_cant": "Unbounded sequences from competing clients.", "anchors": ["downstream.go:handleMessageRegistered (MARKREAD)"]}
{"id": "C30", "title": "Automatically saved credentials are credentials the user typed", "statement": "The bouncer stores SASL PLAIN credentials on its own only with the user name and password the user supplied (to NickServ, in a SASL exchange that the server accepted, or in a registration that the server confirmed), and never replaces another mechanism.", "quantifier": "all sequences of messages of any number of clients and of the server", "why_tests_cant": "All command shapes, spacings and interleavings of exchanges.", "anchors": ["downstream.go:parseNickServCredentials", "user.go:autoSaveSASLPlain", "downstream.go:handleAuthenticate", "upstream.go:handleMessage"]}
{"id": "C31", "title": "The network limit holds", "statement": "Whatever sequence of network create/update/delete commands a non-admin user issues, the number of enabled networks never grows beyond the user's limit.", "quantifier": "all command sequences and limits", "why_tests_cant": "Unbounded sequences mixing enabled and disabled networks.", "anchors": ["user.go:canEnableNewNetwork", "user.go:createNetwork", "user.go:updateNetwork", "user.go:checkNetwork"]}
{"id": "C32", "title": "Network names are unique and resolvable", "statement": "After any sequence of accepted creates, updates and deletes, no two networks of a user have the same name, and looking a network up by its name returns that network.", "quantifier": "all command sequences", "why_tests_cant": "Unbounded sequences; names and addresses share a namespace.", "anchors": ["user.go:checkNetwork", "user.go:getNetwork"]}
{"id": "C33", "title": "Commands about other users and the server need an administrator", "statement": "A command line runs a service command exactly if its words name it, by the full name or by a prefix that no other command of the set shares; the order of the sets does not matter. A command that shows or changes other users or the server is only run for an administrator or the administration socket. Whatever ordinary users send, in any number and order: the server, the set of accounts and the rights of each account stay the same, and nothing of a user who sent nothing changes.", "quantifier": "all command lines, all sequences of command lines of all ordinary users, all databases and outcomes of database calls", "why_tests_cant": "Abbreviation resolution over all strings, and the absence of an escalation path over all sequences of commands.", "anchors": ["service.go:serviceCommandSet.Get", "service.go:handleServiceCommand", "service.go:handleUserUpdate", "service.go:handleUserRun", "user.go:eventUserRun"]}
{"id": "C34", "title": "Quoted command lines split back into their words", "statement": "Words quoted for the service (double quotes with backslash escapes, or backslash before every character) are split into exactly those words.", "quantifier": "all word lists", "why_tests_cant": "All characters and quoting contexts.", "anchors": ["service.go:splitWords"]}
{"id": "C35", "title": "Reconnection delays are bounded and grow exponentially", "statement": "The n-th consecutive retry waits between the doubled delay and that delay plus jitter, the first attempt waits zero, delays never exceed the maximum plus jitter, and a reset restarts from zero.", "quantifier": "all numbers of attempts, all jitter draws", "why_tests_cant": "Random jitter; unbounded attempts.", "anchors": ["rate.go:backoffer"]}
{"id": "C36", "title": "Outgoing messages are written in order and none after close", "statement": "Messages accepted by a connection are written to the network in acceptance order without duplication; a graceful shutdown writes all accepted messages before closing; nothing is accepted after close; closing twice fails without effect.", "quantifier": "all interleavings of senders, the writer goroutine and closers", "why_tests_cant": "Scheduling.", "anchors": ["conn.go:conn"]}
{"id": "C37", "title": "Ident replies disclose only the matching connection", "statement": "The ident server answers a query with the identity registered for exactly that remote host and port pair, and with an error otherwise.", "quantifier": "all registrations and queries", "why_tests_cant": "All histories of Store/Delete.", "anchors": ["identd/identd.go:Identd"]}
{"id": "C38", "title": "Uploaded file paths stay in the upload directory", "statement": "For any request path the file opened for download lies below the upload directory, and stored files never overwrite existing ones.", "quantifier": "all request paths", "why_tests_cant": "Adversarial paths.", "anchors": ["fileupload/fs.go:fs.load", "fileupload/fs.go:fs.store", "fileupload/fileupload.go:ServeHTTP"]}
{"id": "C39", "title": "Deleting a user or network removes exactly its data", "statement": "After deleting a user (network) no row refers to it or to its networks, every other row is unchanged, and foreign keys remain valid after every statement of the transaction.", "quantifier": "all database contents", "why_tests_cant": "All contents.", "anchors": ["database/sqlite.go:DeleteUser", "database/sqlite.go:DeleteNetwork", "database/sqlite_schema.sql"]}
{"id": "C40", "title": "Database history queries return exactly the requested window", "statement": "Listing messages with any combination of bounds returns messages of that network and target satisfying all bounds, in chronological order, limited to the closest ones.", "quantifier": "all table contents and options", "why_tests_cant": "All contents.", "anchors": ["database/sqlite.go:ListMessages", "database/sqlite.go:StoreMessages"]}
{"id": "C41", "title": "Stored timestamps compare like times", "statement": "For all timestamps between years 0 and 9999, comparing their stored text forms lexicographically gives the same answer as comparing the times truncated to milliseconds, and reading a stored timestamp gives the truncated time back.", "quantifier": "all pairs of timestamps", "why_tests_cant": "Infinite domain.", "anchors": ["database/sqlite.go:sqliteTime", "xirc/xirc.go:FormatServerTime"]}
{"id": "C42", "title": "Users get distinct source addresses inside the configured range", "statement": "The source address chosen for a user lies in the configured network, is never the network address, and differs between users; when the range is exhausted an error is reported. Connections to servers leave from this address, whatever addresses the server has.", "quantifier": "all ranges and user IDs, all addresses of servers and random choices among them", "why_tests_cant": "Arithmetic over 128 bits; depends on the resolver and on chance.", "anchors": ["user.go:localTCPAddr", "upstream.go:376-400", "upstream.go:2474-2493"]}
{"id": "C43", "title": "ISUPPORT negation restores the default", "statement": "After the server negates a token, the bouncer treats the parameter as unset and passes the negation to clients.", "quantifier": "all token sequences", "why_tests_cant": "All sequences.", "anchors": ["upstream.go:handleMessage (RPL_ISUPPORT)"]}
{"id": "C44", "title": "Channel member lists mirror the server's events", "statement": "After any sequence of JOIN, PART, KICK, QUIT, NICK and NAMES events, the tracked members of every joined channel are exactly those implied by the events.", "quantifier": "all event sequences", "why_tests_cant": "Unbounded sequences.", "anchors": ["upstream.go:handleMessage"]}
{"id": "C45", "title": "Nick fallback terminates with a usable candidate", "statement": "On repeated nick-in-use errors during registration the bouncer tries the configured nick followed by growing underscores and stops with an error at the length limit.", "quantifier": "all nicks", "why_tests_cant": "All lengths.", "anchors": ["upstream.go:handleMessage (ERR_NICKNAMEINUSE)"]}
{"id": "C46", "title": "The user is away exactly when no client is present", "statement": "For networks with automatic away enabled, after any sequence of client connects, disconnects and AWAY commands the upstream away state is set iff all connected clients are away (vacuously when none is).", "quantifier": "all sequences", "why_tests_cant": "Unbounded sequences.", "anchors": ["upstream.go:updateAway", "downstream.go:handleMessageRegistered (AWAY)"]}
{"id": "C47", "title": "Highlights are whole-word mentions outside URIs", "statement": "A text is a highlight iff the nick occurs in it delimited on both sides by non-word characters and not inside a URI.", "quantifier": "all texts and nicks", "why_tests_cant": "Infinite domain.", "anchors": ["irc.go:isHighlight"]}
{"id": "C48", "title": "The bouncer service cannot be impersonated", "statement": "No message with the service's nick as source or target arriving from a server is forwarded to clients, no client can take the service's nick, and messages to the service never reach the server.", "quantifier": "all messages and spellings", "why_tests_cant": "All spellings.", "anchors": ["upstream.go:handleMessage", "downstream.go:handleMessageRegistered"]}
{"id": "C49", "title": "History requests never return more than the server limit", "statement": "Every CHATHISTORY request is answered with at most the smaller of the requested and the server limit, and malformed requests get an error.", "quantifier": "all requests", "why_tests_cant": "All parameters.", "anchors": ["downstream.go:handleChatHistory"]}
{"id": "C50", "title": "Upstream monitor list follows the clients' lists", "statement": "After the bouncer synchronises MONITOR, the upstream monitor set is exactly the union of the clients' monitored targets.", "quantifier": "all client sets and sequences", "why_tests_cant": "Unbounded sequences.", "anchors": ["upstream.go:updateMonitor"]}
{"id": "C51", "title": "NAMES replies list every member exactly once", "statement": "The RPL_NAMREPLY messages generated for a channel, read by a client, list every member exactly once and in order, a line with several members fits 512 bytes (without prefix and CRLF), and the list ends with RPL_ENDOFNAMES for that channel.", "quantifier": "all channels, statuses and member lists (names non-empty, without spaces)", "why_tests_cant": "The flushing logic depends on cumulative lengths of arbitrarily many names; tests cover a few lists.", "anchors": ["xirc/genmsg.go:GenerateNamesReply"]}
{"id": "C52", "title": "The MOTD is delivered unchanged", "statement": "The RPL_MOTD lines, joined with line feeds, are exactly the configured message of the day; no line contains a line feed, and they are framed by RPL_MOTDSTART and RPL_ENDOFMOTD.", "quantifier": "all message of the day texts", "why_tests_cant": "Holds for all texts, including empty lines and trailing line feeds.", "anchors": ["xirc/genmsg.go:GenerateMOTD"]}
{"id": "C53", "title": "Uploaded files can be downloaded by the link handed out", "statement": "After a successful upload, requesting the returned link opens exactly the stored file; and the file is stored below the uploading user's directory in the upload directory.", "quantifier": "all user names, file names, MIME types and random tokens", "why_tests_cant": "Names are adversarial; the download path is parsed back from the URL.", "anchors": ["fileupload/fs.go:fs.store", "fileupload/fs.go:fs.load", "fileupload/fileupload.go:fetch"]}
{"id": "C54", "title": "Logged events read back the same", "statement": "A JOIN, PART, QUIT, NICK, KICK, TOPIC or channel MODE written to a log file and read back with events requested yields the same event, with the same actor and arguments and the same time of day; without events requested, event lines are skipped and no event is mistaken for a message.", "quantifier": "all nicks, user names, hosts, reasons and times", "why_tests_cant": "Reasons and topics are arbitrary text, and all line kinds share one textual format.", "anchors": ["msgstore/znclog/writer.go:MarshalLine", "msgstore/znclog/reader.go:UnmarshalLine"]}
{"id": "C55", "title": "File store backlog is complete", "statement": "Loading the latest messages from a message ID returned by the file store, either for an appended message or as the current position, yields exactly the messages appended afterwards, in order, the most recent ones when limited.", "quantifier": "all message histories in time order, all limits, any number of days and reads in between", "why_tests_cant": "Depends on file offsets, day changes and ring wrap-around together.", "anchors": ["msgstore/fs.go:LoadLatestID", "msgstore/fs.go:LastMsgID", "msgstore/fs.go:Append", "msgstore/fs.go:parseMessagesBefore"]}
{"id": "C56", "title": "Network settings survive a restart", "statement": "After any sequence of commands that create, change or delete networks, restarting the bouncer gives back exactly the networks in use, up to SASL PLAIN credentials kept while another mechanism is selected.", "quantifier": "all command sequences, with database failures", "why_tests_cant": "Unbounded sequences mixing commands that write memory and database separately.", "anchors": ["user.go:createNetwork", "user.go:updateNetwork", "downstream.go:handleMessageRegistered (NICK, SETNAME)", "database/sqlite.go:StoreNetwork", "database/sqlite.go:ListNetworks"]}
{"id": "C57", "title": "Only admins reach Unix sockets", "statement": "Whatever commands a non-admin user issues, every one of their networks is an Internet address with a host, never a Unix socket.", "quantifier": "all command sequences and addresses", "why_tests_cant": "Unbounded sequences; several ways to set an address.", "anchors": ["user.go:checkNetwork", "downstream.go:updateNetworkAttrs", "service.go:networkFlagSet.update"]}
{"id": "C58", "title": "Certificate fingerprints are normalised", "statement": "An accepted certificate fingerprint is stored as the hash name and the lower-case digits typed, whatever the letter case and colons; any other length or character is refused.", "quantifier": "all fingerprint strings", "why_tests_cant": "All strings.", "anchors": ["service.go:networkFlagSet.update"]}
{"id": "C59", "title": "Help lists what may be run", "statement": "The service's help lists exactly the commands that are run when the caller sends their names, for ordinary users, administrators and the administration socket.", "quantifier": "all callers and command paths", "why_tests_cant": "The list and the checks at execution are separate code; a test checks some commands.", "anchors": ["service.go:appendServiceCommandSetHelp", "service.go:handleServiceHelp", "service.go:handleServiceCommand"]}
{"id": "C60", "title": "The administration socket refuses IRC clients", "statement": "Once a client of the administration socket has sent CAP, NICK, USER or PASS, nothing it sends is executed.", "quantifier": "all sequences of lines", "why_tests_cant": "All interleavings of lines before and after.", "anchors": ["server.go:HandleAdmin"]}
{"id": "C61", "title": "A service command is carried out", "statement": "Every command sent to the service ends, and the user's next commands are processed; in particular a confirmed account deletion deletes the account.", "quantifier": "all commands of all users", "why_tests_cant": "Blocking for ever is not observable by a terminating test, and depends on which goroutine runs the command.", "anchors": ["service.go:handleUserDelete", "user.go:stop", "service.go:handleUserRun"]}
{"id": "C62", "title": "Running accounts are the stored accounts", "statement": "Whatever is sent to the service, by whomever, and whether or not the database works: the names of accounts are unique and each running user's account is as stored.", "quantifier": "all sequences of commands of all users and of the administration socket, all outcomes of database calls", "why_tests_cant": "All interleavings with database failures.", "anchors": ["service.go:handleUserCreate", "service.go:handleUserUpdate", "service.go:handleUserDelete", "user.go:updateUser", "server.go:createUser"]}
{"id": "C63", "title": "A MODE line changes exactly what it says", "statement": "After an accepted MODE line, every recorded channel mode has the value given by its last occurrence in the line (set with the argument that belongs to that occurrence, or unset), every other mode is unchanged, every member's statuses are changed by exactly the status letters whose argument names them, in order, and nobody joins or leaves. A line is rejected exactly when a letter precedes any sign or a status letter has no argument left.", "quantifier": "all CHANMODES/PREFIX tables, all channels, all mode strings and argument lists", "why_tests_cant": "Which argument belongs to which letter depends on the types of all the letters before it and on the tables sent by the remote server; the space of lines is unbounded.", "anchors": ["irc.go:applyChannelModes", "irc.go:89-155"]}
{"id": "C64", "title": "A 302 client always knows the capabilities of the bouncer", "statement": "A client that announces version 302 or above computes from the CAP LS replies and the CAP NEW and DEL notifications exactly the advertised capabilities with their values, and from the CAP ACK replies and the CAP DEL notifications exactly the enabled ones, at every point of every exchange.", "quantifier": "all sequences of CAP commands, all connections and disconnections of the network of the client with any upstream capabilities, all orders of map iteration", "why_tests_cant": "The view is the result of an unbounded history of notifications triggered by upstream events.", "anchors": ["downstream.go:handleCapCommand", "downstream.go:updateSupportedCaps", "downstream.go:setSupportedCap", "downstream.go:unsetSupportedCap"]}
{"id": "C65", "title": "CAP replies fit in an IRC line", "statement": "Every CAP LS reply is at most 512 bytes long, split in several lines if needed.", "quantifier": "all configurations, all upstream capabilities", "why_tests_cant": "The length depends on values sent by upstream servers and on the configuration.", "anchors": ["downstream.go:handleCapCommand"]}
{"id": "C66", "title": "Batches are well formed and lose nothing", "statement": "Whatever sequence of messages and batches is sent to a client with the batch capability, each batch is opened with a reference not used before, the messages tagged with it are exactly its content, and it is closed before another one is opened; a client without the capability receives the same messages with no BATCH line and no batch tag.", "quantifier": "all sequences of messages and batches, all capability states", "why_tests_cant": "Reference reuse and filtering interact over unbounded streams.", "anchors": ["downstream.go:SendBatch", "downstream.go:SendMessage"]}
{"id": "C67", "title": "The right credentials let a client in", "statement": "A client that sends PASS, NICK and USER (or PASS, USER and NICK) with a password the authenticator accepts for the account part of the USER name is registered as this account, with the client and network parts of the name; with a wrong password it gets 464 and is disconnected. A client that requests the sasl capability and sends its authorisation identity, login name and password with SASL PLAIN, divided in chunks of 400 bytes, is registered as the account (or, for an administrator, as the account it asks for) when it ends the negotiation; a wrong password is answered with 904 and leaves the connection as before the exchange.", "quantifier": "For every password, nickname, login name, authenticator, configuration, and every SASL response whose base64 form fits in 10240 bytes.", "why_tests_cant": "The division of responses in chunks, the parts of login names and the order of messages combine freely; tests take a few short credentials.", "anchors": ["downstream.go:624-793", "downstream.go:930-1052", "downstream.go:1290-1366", "downstream.go:1712-1760"]}
{"id": "C68", "title": "A refused client has no effect", "statement": "A client that is refused after its authentication (because its account is disabled, or its network cannot be found) cannot act on the account: its messages are not handled and other connections of the account are not affected.", "quantifier": "For every state of the account and every later message of the client.", "why_tests_cant": "The refusal is only seen as an error message; that the connection stays open and is served needs an adversarial client.", "anchors": ["user.go:720-780", "downstream.go:1442-1460", "server.go:440-455"]}
{"id": "C69", "title": "Account commands set what they are told", "statement": "\"user update\" sets each setting of the account that its flags give (the last one if a flag is given more than once, with one or two dashes, with the value in the same word or in the next one), in memory and in the database, and changes no other setting and no other account; an administrator may do this for other accounts (not for nick and realname), a user for their own (not for admin and enabled, and max-networks only as an administrator). \"user create\" adds an account with the settings that are given and defaults for the others.", "quantifier": "For every server, account, list of settings and way to write them, when the database and reconnections work.", "why_tests_cant": "The combinations of flags, spellings and repetitions are unbounded; tests cover single flags.", "anchors": ["service.go:1004-1169", "user.go:823-846", "user.go:1192-1267"]}
{"id": "C70", "title": "Clients see exactly the attached channels", "statement": "At every moment each connected client has been told (by JOIN, PART and KICK messages sent to it) that the user is in every joined channel that is not detached, and of no detached channel.", "quantifier": "all networks, saved channels, and interleavings of server messages, client commands, service commands and timers", "why_tests_cant": "The messages shown to a client come from seven places in the code; whether they add up to the right view depends on the interleaving.", "anchors": ["user.go:attach", "user.go:detach", "downstream.go:welcome", "downstream.go:handleMessageRegistered JOIN, PART", "upstream.go:produce"]}
{"id": "C71", "title": "Attaching a channel never crashes the bouncer", "statement": "No sequence of server messages, client commands and service commands makes the bouncer panic while it attaches a channel.", "quantifier": "all networks, saved channels and interleavings of events", "why_tests_cant": "The crash needs an attach in the short time between the JOIN of the server and the end of its list of members.", "anchors": ["user.go:attach", "downstream.go:forwardChannel", "upstream.go:handleDetachedMessage"]}
{"id": "C72", "title": "What is stored in the database is what is read back", "statement": "After a user, network, channel, read receipt, push subscription or the delivery receipts of a client were stored, reading them returns what was stored (times in milliseconds, DetachAfter rounded up to seconds, of the SASL credentials those of the mechanism), and everything else reads as before.", "quantifier": "all databases written through the interface; all records, new or known", "why_tests_cant": "Tests store a handful of records in an empty database; they cannot cover all combinations of present rows, absent values, and updates.", "anchors": ["database/sqlite.go:378-400", "database/sqlite.go:429-471", "database/sqlite.go:558-673", "database/sqlite.go:723-792", "database/sqlite.go:802-924", "database/sqlite.go:971-1046"]}
{"id": "C73", "title": "Database backlog pointer returns exactly what came after it", "statement": "With the SQL message store, take a pointer to the last message of a target, let anything happen to the database except the deletion of that network, then load the messages after the pointer: the result is exactly the texts stored for that target since the pointer was taken, each once, in chronological order, up to the limit the most recent ones. In particular no text stored since is left out below the limit.", "quantifier": "for all databases written through the interface, all targets, all later sequences of calls and all limits", "why_tests_cant": "The pointer is chosen by time while the load filters by row id, and rows of other networks are inserted and deleted in between; a test fixes one interleaving and one order of server times, while the claim is about all of them.", "anchors": ["database/sqlite.go:1056-1152", "database/sqlite.go:1226-1306", "msgstore/db.go:56-81"]}
{"id": "C74", "title": "Listing of history targets in the database", "statement": "Listing the history targets of a network between two times returns exactly the targets whose latest message (latest text, unless events are asked for) lies strictly between the two times, each once with the time of that message, in the order of these times, and up to the limit those closest to the first time given.", "quantifier": "for all databases written through the interface, all networks, bounds, limits and both directions", "why_tests_cant": "The listing depends on an aggregate over all messages of every target combined with bounds, order and limit; tests use a handful of rows and cannot show that no target is dropped or repeated.", "anchors": ["database/sqlite.go:1154-1224", "msgstore/db.go:91-121"]}
{"id": "C75", "title": "Clients see the server's parameters as if directly connected", "statement": "For every parameter the bouncer passes through (RPL_ISUPPORT), a client reads from the bouncer's own RPL_ISUPPORT lines the value it would read if it were connected to the server directly: whether it connects before the server announced the parameter, after, or in between announcements, and also after the server changed the value.", "quantifier": "all sequences of announcements, all moments at which the client connects, all parameters passed through", "why_tests_cant": "The value travels through a table, an iteration in map order, a token encoder and a line splitter; tests check a single announcement.", "anchors": ["upstream.go:945-1022", "downstream.go:1442-1600", "upstream.go:60-110"]}
{"id": "C76", "title": "WHO answered by the bouncer is what the server would answer", "statement": "Whenever the bouncer answers a WHO itself instead of asking the server, for a nickname or a channel name and any selection of fields, every entry describes a connected user (of the channel) with the current values of the requested fields, and for a channel every member is listed.", "quantifier": "all servers (users, channels, statuses), all sequences of server events and WHO replies since the connection, all masks and field selections", "why_tests_cant": "The cache is fed by JOIN, NICK, SETNAME, ACCOUNT, AWAY and WHO replies and pruned by PART, KICK, QUIT in any interleaving; a test fixes one order.", "anchors": ["upstream.go:getCachedWHO", "upstream.go:cacheUserInfo", "upstream.go:shouldCacheUserInfo", "downstream.go:WHO"]}
{"id": "C77", "title": "The wanted nickname is asked for until it is had", "statement": "A user let in under another nickname than the configured one has the configured nickname asked for again whenever the retry timer fires with no attempt under way, until they have it or configure another one; refusals of these attempts are not shown to clients, while refusals of clients' own requests are; no message or timer makes the bouncer crash.", "quantifier": "all nicknames, case mappings and interleavings of timers, client requests and server answers", "why_tests_cant": "Timers and answers interleave in unboundedly many ways.", "anchors": ["upstream.go:startRegainNickTimer", "upstream.go:tryRegainNick", "upstream.go:handleMessage (ERR_NICKNAMEINUSE, RPL_WELCOME, NICK, RPL_MONOFFLINE)"]}
{"id": "C78", "title": "Clients are told what the server says about the nicknames they monitor", "statement": "Each online/offline notification of the server is given to exactly the clients that have the nickname on their list, under any spelling; a client that asks for a nickname the server already reported on, and which has been monitored ever since, is told the same; MONITOR L shows each nickname on the list once, and nothing else; a refusal because the list is full is given to exactly the clients concerned.", "quantifier": "all client lists, spellings, interleavings of commands, answers and notifications", "why_tests_cant": "Unbounded interleavings of several clients and a server.", "anchors": ["downstream.go:2645-2735", "upstream.go:1653-1713", "upstream.go:2250-2318"]}
{"id": "C79", "title": "Clients that negotiated network notifications know the networks as they are", "statement": "A client that registered with soju.im/bouncer-networks-notify and reads every BOUNCER NETWORK message as the extension says (named attributes are updated, an empty one is removed, \"*\" removes the network, a batch is the whole list) knows at every later moment exactly what BOUNCER LISTNETWORKS would answer it: the same networks, with the same attributes. A client without the capability gets no BOUNCER NETWORK message it has not asked for.", "quantifier": "for all users, all initial networks, all attribute texts and every order of connections, disconnections, failed attempts, network and user changes, and other clients coming and going", "why_tests_cant": "The difference appears only in interleavings: an announcement queued by a connection that was replaced meanwhile, or an attribute that disappears; tests compare single announcements.", "anchors": ["user.go:637-690", "user.go:895-954", "user.go:1057-1267", "downstream.go:91-139", "downstream.go:1569-1582", "downstream.go:3085-3190", "irc message tags: Tags.String, ParseTags"]}
{"id": "C80", "title": "Registration with a server", "statement": "When the bouncer connects to a server that answers capability negotiation and SASL by the book, the registration ends: whatever the interleaving of messages in the two directions, the exchange comes to rest after the same number of steps in the same state, in which the server has welcomed the bouncer under the network's nickname, both agree on the enabled capabilities (those the bouncer wants and the server offers), the bouncer is logged in to the account its credentials are for if the server announces and accepts the mechanism, and afterwards every saved channel is joined exactly once with its own key, followed by the connect commands in order. However the server splits its list of capabilities into lines, the outcome is that of a single line. Nothing the bouncer sends depends on the SASL password before the server has acknowledged sasl and asked for the response.", "quantifier": "all capability lists in any number of lines, all servers' choices of mechanisms and accounts, all user and network records, all orders of map iteration, all interleavings of the two directions; for the password all sequences of server messages and client logins", "why_tests_cant": "The interleavings of the two directions, the order of Go map iteration and the adversarial server (for the password) are unbounded; tests run one server with one schedule and a fixed list.", "anchors": ["upstream.go:29-48", "upstream.go:705-830", "upstream.go:863-912", "upstream.go:928-951", "upstream.go:1764-1797", "upstream.go:1911-2083", "xirc/genmsg.go:12-63"]}
{"id": "C81", "title": "Push notifications", "statement": "A push notification about an event is sent only to endpoints that a client of the same user bound to the same network registered and still had registered at some moment after the event, encrypted with the keys given last; to each at most once. It is sent only for texts of others that are private or mention the user, invitations and read markers, never for a channel whose messages are not relayed. A notification that is delivered to the end reaches every registered endpoint that works, whatever other clients, users and endpoints do. An endpoint is accepted only after its address was checked and it answered a test request (or it was registered with the same keys already), and registering an endpoint again replaces its keys. When a client reads as far as a text that was notified, a notification about the mark follows.", "quantifier": "all sequences of commands, texts, marks, network changes, and all interleavings of any number of running deliveries with them; all answers of endpoints and all times; any number of users, networks and endpoints", "why_tests_cant": "Deliveries run in goroutines interleaved with commands that change the same table; tests use no push server, and the reuse of row numbers shows only for one interleaving of two users.", "anchors": ["downstream.go:3204-3353", "downstream.go:3378-3394", "downstream.go:2930-2987", "upstream.go:634-703", "upstream.go:1608-1647", "user.go:485-524", "server.go:332-377", "database/sqlite.go:971-1054", "doc/ext/webpush.md"]}
{"id": "C82", "title": "Topics and modes of channels", "statement": "Once everything the server has sent has been handled, every client in a channel knows its topic as it is on the server, who set it, and when if that was before the user joined; the modes it knows, and the time the channel was made, are those on the server; and it knows them if it asked for them and nothing is under way. A client that asks for the topic or the modes of a channel the user is in is answered at once, with those of the server.", "quantifier": "all runs of server lines about any number of channels (joins, parts, kicks, topics, modes, replies), client connections, disconnections, joins, attaching, detaching and questions, and reconnections; any delay of the lines in both directions; any case mapping, mode table and order of the letters in answers", "why_tests_cant": "What a client knows is the sum of lines forwarded, lines held back until a list ends and lines made up from a cache, which depends on when each client connected and what it asked; tests connect one client and look at one reply.", "anchors": ["upstream.go:1172-1290", "upstream.go:1307-1352", "upstream.go:1388-1470", "upstream.go:1500-1560", "downstream.go:2085-2150", "downstream.go:3440-3500", "user.go:320-388", "irc.go:90-180"]}
{"id": "C83", "title": "Uploads over HTTP", "statement": "Whatever requests are made, files are only created by requests with valid credentials made from a permitted origin; each new file lies in the directory of its user, holds the beginning of the body of one request and never more than the limit, and no file is ever changed by another request. An upload that is reported as successful is whole, and the link that is returned leads anyone from then on to exactly the bytes that were sent, under the name that was given. An upload that is answered with an error leaves nothing behind. Every answer forbids scripts, only pages of permitted origins may read answers, and only harmless types are shown rather than saved.", "quantifier": "all sequences of requests and pieces of their bodies, interleaved in any way, with broken connections, failing writes and restarts; any files there before; all header fields, paths, names, tokens, credentials and limits; any table of MIME types", "why_tests_cant": "Uploads are served concurrently, and the link goes through escaping, URL resolution, path cleaning and the splitting of the stored name; tests send one request at a time with one plain name.", "anchors": ["fileupload/fileupload.go:60-359", "fileupload/fs.go:22-100"]}
{"id": "C84", "title": "Clients of a network see the same conversations", "statement": "Every text (PRIVMSG, NOTICE, TAGMSG) that the server passes on, or that the user sends from one of their clients, is shown exactly once and in order to every connected client of the network, except that a client without echo-message is not shown its own text again, that texts of detached channels are not shown, and that message tags are only for clients that asked for them; and it is kept exactly once in the history of the conversation it belongs to. A line with several targets becomes one text for each of them, and between the bouncer and the server nothing is lost, repeated or reordered.", "quantifier": "all interleavings of clients joining, leaving, changing capabilities and sending texts with any targets and tags, of texts of others and of nickname changes by the server, and of the server accepting or refusing each text, with and without echo-message and labeled-response; all case mappings, STATUSMSG prefixes and detached channels", "why_tests_cant": "Who is shown what depends on which client sent a text, on labels that come back later, on capabilities of each client and of the server and on nickname changes on the way; tests use one client and one text at a time.", "anchors": ["downstream.go:480-500", "downstream.go:560-590", "downstream.go:2387-2521", "upstream.go:578-707", "upstream.go:737-783", "upstream.go:1912-1950", "upstream.go:2100-2203"]}
{"id": "C85", "title": "Clients know who they are", "statement": "Every client knows the nickname, host name, user name, realname and account of its user, as far as it has the capabilities for it: a client of a connected network knows what the server has last said, however it was said (welcome, NICK, CHGHOST, 396, 900, 901, SETNAME), and is not confused by the same lines about others; a client without network knows those of the user of the bouncer. A request to change nickname or realname goes to the server when there is one, otherwise the clients concerned are told at once and the next connection uses it.", "quantifier": "all interleavings of clients connecting to the network or to none, leaving and changing capabilities, of NICK and SETNAME, of changes of the user and of the network by the service, of connections registering, failing and closing, and of lines of the server about the user and about others; all case mappings", "why_tests_cant": "The client is told changes only, so what it knows depends on everything it was told since it connected, on the capabilities it had at each moment and on what other clients and the service did; tests compare single replies.", "anchors": ["downstream.go:370-412", "downstream.go:431-436", "downstream.go:487-540", "downstream.go:1137-1239", "downstream.go:1442-1551", "downstream.go:1800-1913", "upstream.go:829-877", "upstream.go:923-930", "upstream.go:1084-1169", "upstream.go:2020-2045", "user.go:641-662", "user.go:895-910", "user.go:1087-1165", "user.go:1192-1254", "database/database.go:207-232"]}
{"id": "C86", "title": "The bouncer connects where it is told", "statement": "A network is dialled at the host and port of its address, with TLS unless the address starts with irc+insecure:, at port 6697 with TLS and 6667 without when no port is given, or at a Unix socket when asked; with TLS the certificate is checked for the name of the host dialled, or for the fingerprint of the network when it has one. A client that adds or changes a network gets the host, port, TLS and other attributes it asked for, keeps those it did not name, is shown the ones in use, and changes no other network.", "quantifier": "all addresses (any bytes) for the absence of plaintext and the name that is checked; all host names, IPv4 and IPv6 addresses and ports for where it is dialled; all users reached by any commands, and all attributes; all fingerprints and lists of certificates", "why_tests_cant": "The address passes through a URL parser, three ways of splitting host and port and two writers; whether some byte string makes it lose TLS or check another name cannot be settled by trying addresses.", "anchors": ["downstream.go:91-201", "downstream.go:3096-3172", "database/database.go:187-215", "upstream.go:240-347", "user.go:1005-1056", "service.go:563-577"]}
{"id": "C87", "title": "Servers are not flooded", "statement": "On a connection to a server, in any period at most the burst (10), one message more and one for every 2 seconds of the period are written, and without the extra one when writes take no time; this holds unless the server says that fake lag is not needed. A message that is next waits no longer than 2 seconds, waits only if writing it at once would exceed the burst and one message per 2 seconds since some moment, and none is lost; connections of clients do not wait.", "quantifier": "all delays and bursts above zero, all sequences of messages queued at any times, writes that take any time, the limit switched on and off at any points, all periods", "why_tests_cant": "The number of messages in a period depends on all that was sent before and on the time each write took; tests cannot cover all arrival times, and would have to sleep.", "anchors": ["conn.go:112-172", "server.go:36-37", "upstream.go:349-352", "upstream.go:1007-1008"]}
{"id": "C88", "title": "An account that is used is not disabled", "statement": "With disable-inactive-user set, an account is disabled only when none of its clients is connected and none was at any time during that delay; an account that was not used for the delay is disabled at the next round. A disabled account gets no new client, through restarts too, until an admin enables it, or at the next login if enable-user-on-auth is set.", "quantifier": "all sequences and interleavings of logins, connections, disconnections, impersonations, updates by admins and by the user, and rounds of the sweep, at any times", "why_tests_cant": "The sweep lists accounts, looks for clients, and disables in separate steps while users connect; the time of last use is written by one goroutine and read from the database by another. Tests check one order with a fixed clock.", "anchors": ["server.go:715-805", "user.go:722-804", "user.go:824-847", "user.go:1192-1265", "user.go:1334-1342", "database/sqlite.go:402-427"]}
{"id": "C89", "title": "The password that lets in is the one set last", "statement": "At any time, logging in with a password succeeds if and only if it is the one set by the last change that was made, by the user, by an admin or with sojudb, and with none if passwords were disabled; logins, disconnections, failures of the database, other updates and restarts do not change it, and hashes weaker than the current cost are replaced at a login. When the password is changed, the clients that used the old one are disconnected.", "quantifier": "all sequences and interleavings of logins (interrupted or not), connections, updates queued and made, failures of the database, restarts; all passwords and salts", "why_tests_cant": "There are two copies of the record, in memory and in the database, both written whole by different goroutines; only an invariant over all interleavings shows which password survives.", "anchors": ["auth/internal.go:20-38", "database/database.go:104-142", "user.go:722-847", "user.go:1192-1265", "user.go:1334-1342", "service.go:1086-1165", "cmd/sojudb/main.go:83-104"]}
{"id": "C90", "title": "Channels are detached when they are quiet, and not before", "statement": "A channel with -detach-after is detached by the bouncer only when that duration has elapsed since the last activity (joining, attaching, sending a message, changing an option, or a message selected by -detach-on), and then it is detached, if it is joined and attached; without a duration it never is. A detached channel is attached again by a message selected by -reattach-on, and otherwise only when the user asks for it.", "quantifier": "all sequences of joins, parts, kicks, messages, commands of clients and of the service, reconnections, restarts and firings of timers, at any times; all durations and filters", "why_tests_cant": "Timers fire in other goroutines and their events queue behind others; tests cannot cover the interleavings, and sleep.", "anchors": ["upstream.go:99-116", "upstream.go:678-691", "upstream.go:1203-1271", "upstream.go:1857-1869", "upstream.go:2238-2248", "user.go:320-406", "user.go:710-720", "user.go:895-903", "downstream.go:1966-2026", "downstream.go:2519", "service.go:1388-1560"]}
{"id": "C91", "title": "Clients are known by their own address", "statement": "The host the bouncer knows a client by (in the prefix of messages, in answers about themself) is the address of the connection itself, without the port. What a Forwarded or X-Forwarded-For header or a PROXY header says is taken if and only if the connection comes from an address in accept-proxy-ip; then it is the address named there. Each parameter of accept-proxy-ip is 'localhost' or a range, anything else is refused at startup, and a range has exactly the addresses that share its leading bits.", "quantifier": "all configurations, all remote addresses (IPv4, IPv6, Unix), all headers, all texts of addresses and ranges", "why_tests_cant": "The sets of addresses, ranges and header texts are infinite, and that headers never count without trust is a universal statement over everything a client may send.", "anchors": ["server.go:662-704", "cmd/soju/main.go:467-482", "config/config.go:20-41", "config/config.go:243-253", "downstream.go:383-387"]}
{"id": "C92", "title": "The bouncer listens as the URIs say", "statement": "Each listening URI opens the documented kind of socket on the documented address and port; plain text over TCP is offered on localhost only unless the scheme says 'insecure' (ident aside); ircs, wss, https and URIs without scheme need a certificate and speak TLS; administration without password is only behind a Unix socket readable by its owner alone; metrics and profiles only on localhost; a URI that cannot be served stops the bouncer.", "quantifier": "all URIs of the configuration and the command line", "why_tests_cant": "A URI that slips through a check on its host would expose passwords or administration; no finite list of URIs shows that none does.", "anchors": ["cmd/soju/main.go:141-489"]}
{"id": "C93", "title": "Web pages are let in by their origin", "statement": "A cross-origin request is answered only if the host of its origin is matched by one of the http-origin patterns, in the sense of the documented pattern language (literals, ?, *, brackets with ranges and negation, escapes); every host that a pattern describes is let in. Patterns that are not well formed are refused when the configuration is read, and no accepted pattern makes any later request fail.", "quantifier": "all lists of patterns, all hosts (any bytes)", "why_tests_cant": "Patterns and hosts are infinite sets; that a backtracking matcher finds a match whenever there is one, and never panics on an accepted pattern, is a statement about all of them.", "anchors": ["fileupload/fileupload.go:108-141", "config/config.go:232-237", "server.go:662-670"]}
{"id": "C94", "title": "The configuration file means what is documented", "statement": "The bouncer starts with a configuration file exactly if every directive is well formed: known drivers with a source where one is needed and only there, well-formed patterns and address ranges, at most one IPv4 and one IPv6 range for users, a number of days, a boolean. Each directive has the effect it says and the documented default if absent. Passwords are checked by the one internal, http or pam line, or else by the OAuth server; tokens only by an oauth2 line; two lines for the same purpose are refused; somebody always checks passwords.", "quantifier": "all contents of a decoded configuration file, all combinations of authentication lines", "why_tests_cant": "The number of combinations of directives is unbounded; a default that leaks through, or an authenticator silently replaced by another, is only excluded by considering all files.", "anchors": ["config/config.go:98-319", "cmd/soju/main.go:54-139", "auth/auth.go:41-55"]}
{"id": "C95", "title": "Reloading takes the new configuration or leaves the old", "statement": "On SIGHUP, if the files make a configuration it is in force at once; otherwise nothing changes. So at any time the configuration in force is the last one that could be loaded, and the certificate that of the last configuration with one; a TLS listener always has a certificate. Listeners, the database and the message store stay those of the start. Whatever is reloaded, each client can get what its user missed, by playback or by CHATHISTORY.", "quantifier": "all sequences of reloads with arbitrary files, users started and stopped, clients connecting", "why_tests_cant": "Which parts of a configuration are read when is spread over process, user and connection; the outcome depends on the order of reloads and connections.", "anchors": ["cmd/soju/main.go:54-160", "cmd/soju/main.go:448-460", "server.go:281-300", "user.go:543-565", "downstream.go:391-399"]}
{"id": "C96", "title": "Authentication by other servers decides as these servers do", "statement": "With an HTTP authentication server, a user name and password are accepted exactly if the server knows them; with an OAuth 2.0 server, a token is accepted exactly for the user the server names, provided the bouncer's client ID and secret are accepted by the server, whatever bytes are in names, passwords, tokens and secrets; the OAuth server is found at its well-known place and used only if its metadata allow what the bouncer will do. A client that is registered sent credentials that the authority in force at that time accepted for this account (for itself, or as an administrator for another existing account).", "quantifier": "for all user names, passwords, tokens, client IDs and secrets, all behaviours of the servers, all sequences of messages of a client, all configurations and databases", "why_tests_cant": "The encodings have to be right for every byte string, and that no message sequence leads round the check is a statement about all sequences and all server behaviours", "anchors": ["auth/auth.go:12-55", "auth/http.go:30-51", "auth/oauth2.go:25-171", "downstream.go:660-750", "server.go:404-418"]}
{"id": "C97", "title": "Accounts are created only for those who authenticated, and clients are served only as who they are", "statement": "In every interleaving of logins, account changes and reloads: a connection is served as a user only if that connection was accepted as that user; an account appears only if an administrator creates it or, with enable-user-on-auth, for a connection that was accepted for it while it did not exist, and then it has no password and no privileges; logging in changes no account except to enable the client's own; with internal authentication no account is created by logging in; whoever is accepted is let in.", "quantifier": "for all sequences of logins, completions, creations, deletions, stops, updates and reloads of any number of connections and users", "why_tests_cant": "Races between connections, administrators and reloads cannot be enumerated by tests", "anchors": ["server.go:458-535", "user.go:722-780", "service.go:1175-1225", "downstream.go:1575-1640"]}
{"id": "C98", "title": "Upgrading the database keeps everything", "statement": "When a newer soju is started on an existing database, the database is either brought to the current schema or left exactly as it was. After a successful upgrade from any version it has the tables, columns, keys and references of a newly created one; every user, network, channel, receipt, subscription and message is still there with the same contents, networks are of the same users, and what is new has values that change nothing. The upgrade of a database whose rows fulfil its constraints succeeds. A database of a newer version is refused and not touched.", "quantifier": "for all old versions, all databases of such a version with any rows, both database systems", "why_tests_cant": "Tests upgrade an empty database of one version; whether rows survive depends on the rows, the constraints between them and the version they start from", "anchors": ["database/sqlite.go:64-246", "database/sqlite.go:285-322", "database/postgres.go:33-117", "database/postgres.go:183-226", "database/sqlite_schema.sql:1-127", "database/postgres_schema.sql:1-112", "database/sqlite_mattn.go:14"]}
{"id": "C99", "title": "No server can make the bouncer crash", "statement": "Whatever lines a server sends, in whatever order and however they interleave with what clients do, the bouncer keeps running: the program is not ended for all users, and the session of the user whose server it is is not stopped. Precisely: as long as every source written in a line has a name, the program is never ended; if moreover welcomes and nickname changes never give an empty nickname, the user's session only stops at one of three coincidences (an extended WHO reply with an empty nickname for a query that asked for it, a text in a detached self-reattaching channel that is half joined, the acceptance of a login the client has since restarted).", "quantifier": "all nicknames, saved channels, sets of clients, and all finite interleavings of lines (arbitrary bytes) from the server with queries, arrivals, departures and authentications of clients", "why_tests_cant": "The lines are arbitrary bytes over unbounded sessions and the crash may depend on state left by lines long before; tests send well-formed traffic, and a fuzzer cannot establish that no line crashes.", "anchors": ["upstream.go:583-1855", "upstream.go:2056-2071", "upstream.go:2430-2433", "irc.go:262-266", "user.go:226-275", "server.go:437-460"]}
{"id": "C100", "title": "No client can make the bouncer crash", "statement": "Whatever messages the clients of a user send, in whatever order and however they interleave with what servers and administrators do, the bouncer keeps running for the user. Precisely: the user's session only stops at one of five coincidences (a message of a client that was told its account is disabled; a message to the bouncer service twice at once; attaching a detached channel that is half joined; a WHO for a channel name under which a user is known, or for a channel with a member known as somebody else; the acceptance of a login the client has since restarted). Moreover a client that is open and bound to a network is bound to one that has not been deleted.", "quantifier": "all accounts and sets of saved networks and channels, all finite interleavings of messages of any number of clients (any command and parameters) with arrivals and departures of clients, connections, disconnections, state changes and answers of servers, and changes of the account by administrators; all outcomes of database operations and checks", "why_tests_cant": "A crash depends on what earlier messages of several clients left behind (deleted networks still pointed to, commands still pending, exchanges under way); tests run single well-formed scenarios and cannot show that no sequence crashes.", "anchors": ["downstream.go:795-1052", "downstream.go:1764-3369", "downstream.go:3387-3429", "service.go:127-197", "service.go:490-1415", "user.go:557-573", "user.go:640-890", "user.go:892-1267", "upstream.go:452-567", "upstream.go:2383-2428"]}
{"id": "C101", "title": "Nobody waits for ever", "statement": "While administrators only update, and run commands that print lines for, users who are not administrators (or themselves), and send notices, and nobody gives up waiting for an answer and no goroutine of a user ends, every message sent by any client is eventually dealt with: from every state reached, only a bounded number of steps is possible without new messages, while work remains some goroutine can go on, and when nothing can go on everybody is at rest. Without these restrictions users hang for ever: two administrators updating each other; an update of a user whose goroutine ends first; a command run for a user whose administrator stops waiting; a message to everybody sent with a full queue (which also keeps the lock of the server, so that nobody can log in); a user deleting themselves.", "quantifier": "all numbers of users and administrators, all finite interleavings of the goroutines of users at the granularity of channel operations and of the lock of the server, all queues of messages and events (each channel of events holds 64), all numbers of printed lines", "why_tests_cant": "A deadlock needs a particular interleaving of goroutines with particular queues; tests run one interleaving and cannot show that no state reached in any other one is blocked.", "anchors": ["user.go:43-107", "user.go:559", "user.go:640-890", "user.go:1265-1280", "service.go:1085-1278", "service.go:1577-1620", "server.go:420-450", "server.go:508", "downstream.go:632", "downstream.go:2405-2430"]}
{"id": "C102", "title": "A search finds what matches, and only that", "statement": "A client's SEARCH with a target, and optionally a sender, words, times and a limit, is answered with one batch of at most 100 stored messages of that target of that network that satisfy every given condition: strictly between the times, sent under that nickname, and (in log files) having the given text somewhere, whatever its case, or (in the database) having every word of it. The text of a request is never read as a query: quotes, operators and wildcards in it have no effect and make no search fail. Without an earliest time, the latest matching messages are given, in order. Any malformed request (no target, a bad time, a limit that is not positive, a connection without a network) is refused with INVALID_PARAMS. With an earliest time the first messages from that time on are given, messages exactly at the times are found, and nicknames are compared as the network does.", "quantifier": "all sequences of attributes with arbitrary bytes, all log directories and databases reached by any sequence of stores, all networks, all limits and times, all classifications of letters and all interpretations of a word occurring in a text", "why_tests_cant": "The texts of requests and messages are arbitrary bytes; whether some text escapes the quoting of the full-text query or a condition is dropped for some combination of attributes cannot be sampled exhaustively.", "anchors": ["downstream.go:2984-3069", "msgstore/fs.go:318-389", "msgstore/fs.go:524-545", "msgstore/db.go:150-165", "database/sqlite.go:1216-1303", "database/sqlite.go:1305-1346"]}
{"id": "C103", "title": "Answers reach the client that asked for them", "statement": "When several clients of one network use the server at the same time, every line with which the server answers a command of one of them is sent to the client that sent the command, and to no other client; if that client has left, it is sent to no one. No line of an answer is dropped with an error, and no client waits for ever for a LIST, WHO or WHOIS which was never sent to the server.", "quantifier": "All case mappings; all interleavings of clients arriving, leaving, sending LIST/WHO/WHOIS and other commands, and answers of a server that answers each command, in any order, with any lines, in nested batches or not, with and without labeled-response.", "why_tests_cant": "The routing depends on the history of commands, labels, open batches and queues; a test has one interleaving, with a server that answers as the test expects.", "anchors": ["upstream.go:404-450", "upstream.go:510-614", "upstream.go:1049-1082", "upstream.go:1459-1476", "upstream.go:1525-1618", "upstream.go:1741-1852", "upstream.go:2100-2119"]}
{"id": "C104", "title": "Logs follow their networks", "statement": "With the log directory as message store, the log of a channel or user of a network has exactly the lines logged there, in order: renaming the network loses nothing, no message is written to the log of another network, and a network does not show messages of another one. The ID of a message keeps pointing to its line. However many conversations are active, a bounded number of files is open, and no message is lost because its file was closed.", "quantifier": "All sequences of networks being added, renamed and deleted, messages being logged, and restarts; any names, entities, days and lines.", "why_tests_cant": "Which file a message goes to depends on the files that were opened before, under names which may have changed since; tests rename no network between messages.", "anchors": ["msgstore/fs.go:88-208", "msgstore/fs.go:547-555", "user.go:1048-1052", "user.go:1146-1156"]}
{"id": "C105", "title": "Push endpoints are machines elsewhere", "statement": "Clients choose the endpoints that push notifications are sent to, but they cannot use the bouncer to reach its own machine or the networks behind it. A request goes only to an endpoint that was checked when it was registered: an https URL whose host has no loopback, private or multicast address. All connections of all requests, tests and notifications, are with TLS, to port 443, and to addresses elsewhere. An endpoint elsewhere that answers is accepted.", "quantifier": "For all sequences of WEBPUSH commands of any users, events that cause notifications and deliveries, all URLs, all addresses of IPv4 and IPv6, all answers of the DNS and of the endpoints.", "why_tests_cant": "What has to be true is about URLs nobody thought of and about a DNS and endpoints that are run by an attacker and may answer differently every time. Tests have no DNS and try a handful of URLs; that two libraries read the same URL differently shows only by relating what is checked to what is connected to, for all URLs.", "anchors": ["downstream.go:3204-3353", "downstream.go:3499-3523", "server.go:332-377", "server.go:807-812", "user.go:485-524"]}
{"id": "C106", "title": "Channel commands of the service do what they are told, and the listing shows it", "statement": "`channel update` sets exactly the options it is given on exactly the channel it names (any number of options, in any order and notation, the last one of a kind counting), `channel create` adds exactly one channel with exactly the options it is given and joins it when the network is connected, `channel delete` removes exactly the channel it names and leaves it when it is joined. A command that fails changes nothing. The database has afterwards what is in memory. `channel status` lists every channel exactly once, in order, with the network and with whether it is joined, parted, disconnected and detached; what it lists can be used to name the channel in the other commands.", "quantifier": "for all users, networks, case mappings, channels, sequences of commands, options, notations and durations, from clients bound to a network or to none", "why_tests_cant": "The states, names and combinations of options are unbounded; tests try a few commands on one network with a database that always works.", "anchors": ["service.go:1280-1566", "user.go:320-406", "database/sqlite.go:757-800"]}
{"id": "C107", "title": "A PostgreSQL database gives back what it was given", "statement": "With PostgreSQL as database, whatever users, networks, channels, receipts, push subscriptions and messages are stored, the same is read back (times to the microsecond), new things get an identifier of their own, and nothing else changes. A call that fails changes nothing. Listing messages gives exactly those stored for the target that match, in chronological order, the first or the last ones up to the limit; the last identifier is the one of a latest message; targets are listed with the time of their latest message. Deleting a user or a network always works, removes everything that belongs to it and nothing else. Every reference leads to something that exists. What SQLite stores, PostgreSQL stores.", "quantifier": "for all sequences of calls, all contents, all identifiers given by sequences, all orders PostgreSQL may give to rows with equal keys", "why_tests_cant": "Tests would need a PostgreSQL server (the repository's are skipped without one) and try a few rows with short ASCII texts.", "anchors": ["database/postgres.go:255-1053", "database/postgres_schema.sql"]}
{"id": "C108", "title": "Importing a ZNC configuration does what the file says and nothing else", "statement": "A ZNC configuration file is read as it was written: settings and sections in order, nested to any depth, with any blank space and comments between them. After a successful import every user of the file, their networks and their channels are as the file says (servers with TLS exactly when the port has a plus, and with their password; nickname, ident and real name of the network or else of the user; disabled channels skipped); what was there before keeps the settings the file cannot give; networks and channels the file does not name stay as they are. Whatever the outcome, users not in the file, or left out with -user, keep all that is theirs, and receipts, subscriptions and messages stay.", "quantifier": "for all files, all databases written through soju, all -user and -network options", "why_tests_cant": "Files nest and mix without bound and databases already hold anything; a test imports one file into an empty database.", "anchors": ["contrib/znc-import/main.go:39-475"]}
{"id": "C109", "title": "Copying a database to PostgreSQL gives everyone what was theirs", "statement": "When migrate-db has run to its end, the new database has every user of the old one with the same name, password and settings, and each of them has exactly their own networks, with the same settings and credentials, the same channels, delivery receipts, read markers and push subscriptions, and the push keys of the server are the same.", "quantifier": "for all source databases, with any users, networks, channels, receipts and subscriptions", "why_tests_cant": "Which numbers rows have depends on everything that was ever created and deleted; a test copies a database made a moment before, whose numbers are 1, 2, 3.", "anchors": ["contrib/migrate-db/main.go:31-160", "database/postgres.go:338-367", "database/postgres.go:427-475", "database/postgres.go:519-546", "database/postgres.go:584-623", "database/postgres.go:693-790"]}
{"id": "C110", "title": "The key with which push messages are signed never changes", "statement": "Clients are shown the same push key at every connection, over all restarts and crashes of the server, every push message is signed with the key that was shown when the client registered for it, and a server that cannot be started because of the key does not occur.", "quantifier": "for all sequences of starts, failures of the database, crashes at any point, connections, registrations and push messages", "why_tests_cant": "A change of the key shows only when a process is killed between making, keeping and using it, or when two are started at once; tests start one server and do not kill it.", "anchors": ["server.go:221-230", "server.go:302-330", "server.go:332-377", "database/sqlite.go:173-179", "database/sqlite.go:926-969", "database/postgres.go:693-731", "downstream.go:1493-1496", "downstream.go:3230-3290", "user.go:485-506"]}
{"id": "C111", "title": "Copying log files to a database keeps every message, once, where it was said", "statement": "When migrate-logs has been run to its end, the database has every message of the log files of every user, network and target, once, under that network and target, with its sender, text and second, in the order of the log, next to the messages it had before, which stay as they were.", "quantifier": "for all databases, users, networks, names of targets, folders in any order and contents of files", "why_tests_cant": "Folder names are escaped without a way back, files are listed in an order that depends on the file system, and copies that are broken off leave a part behind; a test copies one small folder once.", "anchors": ["contrib/migrate-logs/main.go:40-153", "msgstore/znclog/reader.go:16-168", "database/sqlite.go:1077-1152", "msgstore/fs.go:27-35"]}
{"id": "C112", "title": "The server stops when it is told to", "statement": "When the server is told to shut down, every user's bouncer finishes what it was given before and ends, then the database is closed and the process can exit; nothing a client did before keeps the server from stopping, and the database is not closed while a user's bouncer still runs.", "quantifier": "for all sets of users, in any order, all events they have been given, full or empty queues, and all interleavings of their goroutines with the shutdown", "why_tests_cant": "It depends on how goroutines, a mutex and bounded channels interleave; a test shuts down an idle server.", "anchors": ["server.go:378-402", "server.go:404-460", "user.go:559-580", "user.go:877-888", "service.go:1037-1047"]}
{"id": "C113", "title": "A message of a client is one line for the server", "statement": "Every message the bouncer passes on from a client to a server reaches the server as one line, which is that message: no text of a message can become a command of its own or count as one message for the rate limit while being several lines.", "quantifier": "for all bytes TCP clients write and all frames of WebSocket clients", "why_tests_cant": "Any byte may stand in any message; a test sends well-formed messages.", "anchors": ["conn.go:30-76", "conn.go:146-172", "downstream.go:469-482", "downstream.go:2387-2488", "downstream.go:3351-3368"]}
{"id": "C114", "title": "WebSocket clients are sent valid text", "statement": "Every message is sent to a WebSocket client as a frame in UTF-8, whatever bytes servers and other users put into it, so that no message makes a browser close the connection. A message in UTF-8 is sent as it is; in others every character stays, in its order, and every run of bytes that are no characters becomes one U+FFFD.", "quantifier": "for all messages, with any bytes", "why_tests_cant": "All sequences of bytes: overlong forms, surrogates, cut-off characters.", "anchors": ["conn.go:67-76"]}
{"id": "C115", "title": "Clients can connect until the server is stopped", "statement": "A listener goes on accepting clients, whatever goes wrong in passing: after temporary errors it waits for 5 ms, then twice as long for each further one in a row, up to a second, and begins anew after a client. Every connection is handled once, in order. Once the server is told to stop, no client is accepted any more, and every listener and the server itself end.", "quantifier": "for all sequences of connections and errors, and all interleavings of listeners that start with the server being stopped", "why_tests_cant": "Resource exhaustion and the moment of a stop are hard to provoke; runs of errors have no bound.", "anchors": ["server.go:107-143", "server.go:378-400", "server.go:630-660"]}
{"id": "C116", "title": "Servers that ask are told whose connection it is", "statement": "A server that asks the ident server of the bouncer about one of its connections is told the ident of the user whose connection it is; whoever asks about anything else is told nothing. The ident is 32 hexadecimal digits, always the same for a user, different for different users, and made from nothing but a hash of the number of the account.", "quantifier": "for all runs of connections of all users, all queries from all hosts, all account numbers", "why_tests_cant": "All interleavings of connections that start and end; ports chosen by the operating system.", "anchors": ["user.go:210-219", "user.go:243-246", "identd/identd.go:18-134"]}
{"id": "C117", "title": "A quoted command goes to the network that was named, as it was written", "statement": "When a user has the service send a raw command with network quote, the server of the network they named by the name it is listed with, or of the network the client is bound to if they named none, reads exactly that command with the same parameters, as one line; no other server is sent anything. If there is no network of that name or it is not connected, nothing is sent.", "quantifier": "for all lists of networks of a user, all names and all command texts", "why_tests_cant": "Any text can be written: blanks, colons, empty and trailing parameters; names and addresses of networks can be alike.", "anchors": ["service.go:493-507", "service.go:731-757", "service.go:1050-1055", "user.go:574-584", "user.go:1041-1053", "upstream.go:2100-2108", "database/database.go:180-185"]}
{"id": "C118", "title": "The users listed as inactive are those who were not there since the limit", "statement": "After any calls to the database, the list of inactive users holds exactly the users whose last stored interaction, or whose creation if no interaction was stored, is before the limit, to the millisecond in SQLite and the microsecond in PostgreSQL.", "quantifier": "for all sequences of calls to either database; in SQLite for all times of four-digit years", "why_tests_cant": "Times are kept and compared as texts; which of the two times counts depends on all updates of the user since they were created, with other users created, updated and deleted in between.", "anchors": ["database/sqlite.go:402-427", "database/sqlite.go:429-478", "server.go:742-770", "database/postgres.go:312-367"]}
