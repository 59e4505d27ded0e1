# Verified model of soju

A Rocq (Coq 8.16.1) model of the soju IRC bouncer and proofs of the properties
listed in `properties.jsonl`.

## Layout

`rocq/theories/`

* `Base/` shared byte-string and list library (no soju code).
* `Model/` executable Gallina transcriptions of Go functions. Each definition
  cites the file and lines it models and says where it simplifies. No proofs.
* `Spec/` small specifications, written without the model's helpers.
* `Proof/` lemmas.
* `Properties/` the property theorems, each closed by `exact`, each followed by
  `Print Assumptions` and by `Example`s showing that a concrete non-trivial
  case meets the hypotheses.

Conventions: Go `string` and `[]byte` are `bytes := list ascii`; Go `int`,
`int64` are `Z` or `nat` unless the property concerns overflow; Go maps are
association lists plus an explicit iteration order where the order can be
observed; errors are `option`/`result` values; pointers to mutable records are
returned as new values.

## Plan per property

| id | model | proof |
|---|---|---|
| C01 | `casemapping.go` folding functions on bytes | per-byte case analysis lifted to strings; spec is the table of identified pairs |
| C02 | `CaseMappingMap` as association list on folded keys | refinement to a function from classes to values, induction over operations |
| C03 | `SetCaseMapping` as a fold over an arbitrary permutation | permutation argument |
| C04 | `MembershipSet.Add/Remove` | invariant "sublist of the advertised list", induction over operations |
| C05 | `Format`, `parseMembershipPrefix`, `formatMemberPrefix` | round trip |
| C06 | `userModes` | fold over letters vs. set spec |
| C07 | `applyChannelModes`, `channelModes.Format` | round trip for every map iteration order |
| C08 | `GenerateJoin` with an arbitrary stable or unstable sort | permutation + parse-back, loop invariant |
| C09 | `GenerateMonitor` | loop invariant; length clause expected to fail by a few bytes |
| C10 | `GenerateIsupport` | loop invariant |
| C11 | `GenerateSASL`, base64, `handleAuthenticate` buffer | round trip |
| C12 | `whox.go` | round trip |
| C13 | ring buffer with capacity parameter | refinement to the list of all appended messages |
| C14 | memory store `LastMsgID` | expected refuted (off by one) |
| C15 | BARE + base64url codec | round trip, injectivity |
| C16 | `EscapeFilename`, `logPath` | safety; injectivity expected refuted |
| C17 | `MarshalLine`/`UnmarshalLine` | round trip |
| C18 | day files as lists of timed lines | refinement to filter/sort/limit on the flat log |
| C19 | `stripANSI` | induction on input |
| C20 | `unmarshalUsername` | round trip |
| C21 | CAP state machine | invariant by induction |
| C22 | `downstreamConn.SendMessage` | case analysis, spec by capability table |
| C23 | registration state machine with an authenticator oracle | invariant over all message sequences |
| C24 | pending command queues | refinement to FIFO spec |
| C25 | stale timeout branch | expected refuted |
| C26 | label format/parse | round trip on decimal numbers |
| C27 | detached-message handling | decision table vs. spec |
| C28 | delivery receipts over an abstract log | invariant over histories |
| C29 | MARKREAD | invariant over histories |
| C30 | `parseNickServCredentials`, `autoSaveSASLPlain` | expected refuted for `SET` |
| C31 | network commands with limit | invariant over histories |
| C32 | `checkNetwork`, `getNetwork` | invariant; lookup clause expected refuted |
| C33 | `serviceCommandSet.Get` on the real command tree | theorem over all command lines |
| C34 | `splitWords` | round trip; backslash clause expected refuted |
| C35 | `backoffer` | closed form by induction |
| C36 | connection as a transition system | invariant over all interleavings |
| C37 | identd table | refinement to a finite map |
| C38 | `path.Clean`-based lookup | path safety for all inputs |
| C39 | relational model of the schema | relational reasoning |
| C40 | message table queries | filter/sort/limit spec |
| C41 | decimal time layout | lexicographic order lemma |
| C42 | `localTCPAddr` on numbers/bytes; `dialTCP` and `resolveIPAddr` with the resolver and the random choice as parameters | arithmetic |
| C43 | RPL_ISUPPORT loop | expected refuted |
| C44 | channel member tracking | refinement to an event-sourced spec |
| C45 | nick fallback | induction |
| C46 | away aggregation | invariant |
| C47 | `isHighlight` | equivalence with declarative spec |
| C48 | service nick guards | case analysis |
| C49 | CHATHISTORY parsing | case analysis |
| C50 | `updateMonitor` | expected refuted for the regained nick |
| C51 | `GenerateNamesReply` | loop invariant, parse-back; the length of a line is outside (the code ignores the prefix) |
| C52 | `GenerateMOTD` | parse-back |
| C53 | upload path + `fetch` | composition of the two path functions; refuted for the user name `..` |
| C54 | event lines of `znclog` | round trip and "skipped by the reader" |
| C55 | `LastMsgID`/`LoadLatestID` of fs.go over the line format | composition of C17 and C18 |
| C56 | in-memory list vs. rows (Networks) | invariant "reload = memory" over all commands |
| C57 | `checkNetwork` + URL kinds | invariant over all commands |
| C58 | certfp.go | normal form, equality of notations |
| C59 | help of service.go | listing = what resolves and is allowed |
| C60 | `HandleAdmin` | run of the console machine |
| C61 | service commands incl. the goroutine rendezvous | progress; refuted for self deletion |
| C62 | accounts in memory vs. rows | invariant |
| C63 | `applyChannelModes` per position | position-based semantics of MODE |
| C64, C65 | CAP state machine | invariant; length refuted |
| C66 | `SendBatch` + filter | reader of batches |
| C67, C68 | registration | completeness runs; refuted for refused connections |
| C69 | `user update/create` with package flag | exact effect |
| C70, C71 | detached channels | two invariants over histories; crash characterised |
| C72 | SQL store functions | round trip through the tables |
| C73, C74 | SQL message queries | filter/sort/limit specification |
| C75 | ISUPPORT relay | client view vs. direct view |
| C76 | WHO cache | invariant vs. a server that knows the truth |
| C77 | nick regain | invariants, progress |
| C78 | MONITOR of clients | relay characterised, lists |
| C79 | network notifications against BOUNCER LISTNETWORKS | simulation: the client's view is the listing; silent and late events refuted |
| C80 | registration with a server: capability negotiation, SASL as a client, joins and connect commands | composed with a server specification and two queues: diamond property, so one schedule decides; password by noninterference |
| C81 | push notifications: the table of subscriptions, WEBPUSH, deliveries as interleaved jobs, push targets and read markers | invariants relating rows and lists of jobs to the registrations in the trace; a delivery drains its list; refinement to `working` endpoints |
| C82 | topics and modes: the cache of each channel, what is forwarded, held back and made up for clients; a server with its own channels and delayed lines both ways | one invariant per channel relating the client's view, the cache, the lines on the way and the server; views are folds over everything received |
| C83 | uploads: `ServeHTTP`, CORS, authorisation, `fetch`, `store` with bodies that arrive in pieces, the link | invariant over all runs relating each new file to the body received by one request; the link composed of escaping, reference resolution, path cleaning and shown name; headers by cases |
| C84 | texts: a line of a client with its targets and tags, labels, texts of the server, `produce`, CAP NEW/DEL/ACK for labeled-response and echo-message; the server and both directions of the connection | invariant over all runs (labels and nicknames on the way are in step); each turn is seen and kept as a relation says that leaves no choice; transport as an equation of sequences |
| C85 | own identity: `updateNick`, `updateHost`, `updateRealname`, `updateAccount`, welcome, NICK and SETNAME of clients, the server's lines about the user and about others, changes by the service, connecting and reconnecting; the server and the lines on the way | what a client makes of its messages is a fold of its own (`knows`); invariant over all runs: clients' fields are what they know, what a connection knows plus the lines on the way is what the server holds; `C85_*_refuted` for clients that are not told while disconnected or of changes by the service, the welcome without network, stale and forgotten realnames, late capabilities, empty user names |
| C86 | addresses: `net/url.Parse` (modelled concretely, Go 1.19 to 1.25), `Network.URL`, `connectToUpstream` up to the dialling, verification by fingerprint, `networkAddrFromAttrs`, `fillNetworkAddrAttrs`, `updateNetworkAttrs` and ADDNETWORK/CHANGENETWORK on top of Model/Networks.v | grammar of addresses of its own (`written`, `host_of`): the model parses every address of the grammar to what it says; for arbitrary bytes, the scheme of the parsed URL is the text before the first colon, so plaintext is only ever asked for; changes of attributes composed with dialling for all reachable users; `C86_*_refuted` for fingerprints met by any certificate of the list, IPv6 addresses, hosts that contain a scheme, nicknames equal to the user name |
| C87 | rate limit: the token bucket of x/time/rate with exact arithmetic, the writer of `newConn` that takes one message at a time and asks it before writing, `SetRate` by ISUPPORT SAFERATE | invariant on tokens and time; in any window the number of messages is at most burst + 1 plus one per delay (induction over turns with a potential), tight; a wait only when the bucket is empty |
| C88 | account: the record in memory and in the database, logins, `user.run`'s events about clients and updates, `updateUser`, `bumpDownstreamInteractionTime`, the sweep in three steps | induction over all runs: a client of the user is connected, or all times at which one was are at most the stored time; invariant for disabled accounts; `C88_*_refuted` for races with the sweep, restarts, accounts enabled by an admin |
| C89 | the same machine with `CheckPassword`, its upgrades, `SetPassword`, sojudb; bcrypt as a function that accepts one password | refinement: what both copies accept is the head of a track of changes made; `C89_*_refuted` for upgrades, sojudb, late connections and the user's own change |
| C90 | `updateAutoDetach` with timers of their own identity, the event of a timer on its way, and everything that attaches, detaches, joins, leaves, deletes or updates a channel | time of the last activity as a fold over operations (`last`); invariants: in orderly runs the only timer is due at last + after; in plain runs a quiet channel has a timer due by then; `C90_*_refuted` for crossing events, kicks, repeated JOINs, messages to operators, channels created when joined, failed deletions |
| C91 | net.ParseIP (netip), net.ParseCIDR, `IPNet.Contains`, mime.ParseMediaType, net.SplitHostPort; `parseForwarded`, `ServeHTTP`, `proxyProtoListener`, the client's host | grammar of IPv4/IPv6 texts and ranges (`denotes`, `range`, `covers`: arithmetic on 128-bit numbers) and of the header (`forwarded_text`), parsers proved sound and complete for them; trusted iff some parameter covers the address; `C91_*_refuted` for chains of proxies |
| C92 | the loop over `cfg.Listen`, `withDefaultPort`, URL.Hostname | case analysis of `opened`: whatever text is given, what may be opened; round trips for all documented forms; `C92_*_refuted` for relative paths and an empty port |
| C93 | path.Match with its chunks and UTF-8 decoding, `checkOrigin`, the check at startup | grammar of patterns (`pat`) and of the hosts they describe (`glob`), separate from the matcher; soundness by induction on the fuel of the matcher, completeness by the leftmost-match argument for stars; `C93_*_refuted` for slashes and `[!...]` |
| C94 | config.go after decoding, `loadConfig`'s authenticators | `valid`/`says`: one clause per directive; loading succeeds iff `valid` and then `says`; authenticators by induction on the lines (`only`) |
| C95 | `loadConfig`, SIGHUP, start of users, capabilities of clients | `loads` is a relation between files and configuration; invariant over all runs: in force is the last one loaded; `C95_*_refuted` for the message store |
| C96 | `httpAuth`, `oauth2` (discovery, introspection request, Basic header, form encoding), the choice of authenticator | servers are functions of the request, constrained by what RFC 7617 and RFC 7662 let them understand (`basic_credentials`, `form_value`: decoders written separately); round trips of the encodings; composition with the registration model of C23; `C96_*_refuted` for colons and @ in user names |
| C97 | `authenticate…`, `handle`, `createUser`, `user create/delete`, stops and reloads, interleaved | operations of many connections; invariant over all runs relating phases of connections to acceptance in the past; `C97_*_refuted` for deletions and simultaneous first logins |
| C98 | `upgrade` of both databases, all migrations and schemas as data, executed by a small SQL interpreter | schemas are computed from the migrations alone (rows never matter to them), compared with the fresh schema by reflection; rows by a chain of per-statement lemmas over arbitrary databases of each version; success by an invariant on references; `C98_*_refuted` for SQLite databases older than version 14 and push subscriptions; `C98_schema_sqlite_partial` excludes the two columns whose constraints differ (the default of `User.created_at`, NOT NULL of `WebPushSubscription.user`) |
| C99 | Model.Robust: reading of lines and handleMessage with a `Panic` outcome at each index, dereference and explicit panic (Roster is reused for channels and users), the goroutine each message runs in | invariants (timer, pending WHOIS, nothing pending before registration, names) by induction over runs; refuted for sources without a name, empty nicknames and three coincidences. |
| C100 | Model.Crash: handleMessageRegistered, the service's commands about networks, channels and the account, networks of a user, with a `Panic` outcome at each index, each possibly nil pointer and each explicit panic; what databases, checks and other state decide is asked of an arbitrary oracle | invariant (open clients are bound to networks that exist, pending commands are well formed, network identifiers are not 0) by induction over events; loops over targets by induction; five witnesses by vm_compute |
| C101 | Model.Wait: a transition system whose state has, for each user, the place of the goroutine and the channel of events with room for 64, and the lock of the server, results of updates and the channels for printed lines; a run is an interleaving of steps of goroutines, ends of contexts, messages of clients and panics. Spec: calm runs, rest, being stuck. Proof: an invariant (every awaited answer is owed by exactly one goroutine of a user who is not an administrator, lines in a channel have a listener, the lock is held by who is sending a notice), from it progress (not at rest: a step is possible) and a measure that every step makes smaller. Refuted outside calm runs: five witnesses, each with an invariant under all continuations |
| C102 | Model.Search (on History, FsStore, SqlQuery): the attributes of SEARCH, the selection of fs.go, quoteFTSQuery. Spec.Search: what attributes request, the words of a text (maximal runs of letter code points), how FTS5 reads a sequence of strings. Proof: by induction on attributes with distinct names; FieldsFunc = words by induction on code points; reading back the quoted words by induction on each word; then the theorems on windows of log files (C18) and on listings of rows (C40). Refuted parts have witnesses. |
| C103 | `Model/Answers.v` puts labels, batches and the queues of `Model/Pending.v` together with the cases of `handleMessage` that route answers. `Spec/Answers.v` has a server with a list of commands to answer, which sends any line that belongs to one of them; a step of it is any line allowed by the protocol. Invariant: at most one query of each kind is at the server, it is the head of the queue, every open batch belongs to one command and has its label. Refuted for servers that end an answer twice, for errors about other commands, and in part without labels. |
| C104 | `Model/LogFiles.v`: files with their contents apart from their names, open files indexed by entity, `Append` with the closing of old files, `RenameNetwork`. `Spec/LogFiles.v`: what was logged per network, entity and day. Invariant: a hidden map from files to (network, entity, day), injective, which the tree and the open files agree with. Refuted when a network gets a name that another one had. |
| C105 | Model/Endpoint.v: net.IP.IsLoopback, IsMulticast, IsPrivate; LookupIP of literals and names; sanityCheckWebPushEndpoint; URL.Hostname and Port, canonicalAddr and the redirections of net/http; on top of the steps of Model/Push.v, whose check and answers come from there. The DNS and the hosts are a world that may change with every step. Proved: the ranges (for all addresses, by their numbers); the invariant that every stored endpoint and every one still to be notified was checked; what the authority of a URL without colons is, so that what is checked is what is connected to. |
| C106 | Model/ChanCmd.v models the four channel commands with the flag parser of Model/Service.v, the channels in memory and the rows of the database with their identifiers. Spec/ChanCmd.v says what settings mean, how they and the names are written, what a row has of a channel and what a listing shows. Proved per command, by an invariant over any sequence of commands, and for the listing by the correctness of the sort. Partial: `channel create -detached` is ignored, a failing update with several options changes memory, a failing database leaves a created channel in memory, durations are rounded, a client may be shown the channels of another network, names with a slash cannot be used. |
| C107 | Model/Postgres.v models the tables of postgres_schema.sql with their types (VARCHAR(n), 32-bit INTEGER, UTF-8 texts, timestamps in microseconds), constraints and cascades, and each function of postgres.go on them; identifiers given by sequences are arguments. Spec/Postgres.v says what UTF-8 is (by encoding code points), which time is nearest, and what is read back. Proved by the constraints as invariant over any sequence of calls, per call, and for the queries with any ordering of equal keys. Partial: texts have to be UTF-8 and to fit into their columns. Properties/PgWorks.v: creating works unless a name is taken. |
| C108 | Model/ZncImport.v models the parser of contrib/znc-import and the import on the SQLite tables of C39/C72. Spec/ZncImport.v writes files from a tree of settings, sections, comments and blank space, and says per user, network and channel what is to be read from the database afterwards. Parsing proved by induction over the file; the import by induction over channels, networks and users, with what is read back after each store (C72). The address is followed up to what is dialled (C86). Partial: no two sections for the same user, network or channel. |
| C109 | Model/MigrateDb.v models contrib/migrate-db with any source (what its List functions return; SQLite as an instance) and PostgreSQL (Model/Postgres.v with its sequences) as the destination. Spec/MigrateDb.v says what it is for a user's networks to be those of a user of the source. Proved by induction over subscriptions, receipts, channels, networks and users, with what is read back after each store (C107) and what each store leaves alone. `C109_works`: the copy runs to its end for any source within the constraints of the tables; by induction with the invariant that every sequence is ahead of its table (Proof/MigrateWorks.v). `C109_sqlite_works`: for SQLite databases written through the interface, uniqueness follows from the schema and an invariant about rows of networks (Proof/MigrateSqlite.v). Partial: only if the users have the numbers 1, 2, ... in the order listed, and without what is not copied; both refuted in general. |
| C110 | Model/Vapid.v models the start of processes on one database in steps (list, make keys, keep keys), any of which may be the last, and what they show and sign afterwards. Spec/Vapid.v says what one key is. Proved by an invariant over all runs: at most one row, and everything in memory and with the subscriptions agrees with it. Partial: with one process at a time; refuted for two at once. |
| C111 | Model/MigrateLogs.v models contrib/migrate-logs with the log reader (Model/ZncLog.v, C17) and SQLite (Model/Sql.v, C40). Spec/MigrateLogs.v lists the messages in the folders and says what it is for exactly these to be added. Proved by composition of loops that add what they should; a second theorem starts from the line soju wrote (Model/FsStore.v). Partial: under the name of the folder, and if the copy is run once and to its end; refuted otherwise. |
| C112 | Model/Stop.v models Shutdown, the goroutines of users with their channels of 64 events, and the lock of the server as a transition system. Spec/Stop.v says that every run without further events is short and only ends with the database closed. Proved with an invariant (who has been told) and a measure. Partial: as long as no event needs the lock and nothing panics; refuted otherwise, with invariants that keep the database open for ever. `C112_closed_last` holds in every execution; `C112_handled_partial` says that all that was queued before is dealt with first. |
| C113 | Model/Lines.v models reading from TCP and WebSocket connections (irc.v4 as in Model/Robust.v), passing on and writing. Spec/Lines.v says what a server reads, with LF or with CR and LF as line ends. Proved by showing that parsing, splitting and formatting bring no line ends in. Partial: refuted for WebSocket frames with line ends inside, and for CR with servers that end lines with it. |
| C114 | Model/ValidText.v models WriteMessage of WebSocket connections with strings.ToValidUTF8, on utf8.DecodeRune of Model/Glob.v. Spec/ValidText.v reads a text as characters of RFC 3629 and other bytes. Proved by induction on the text with the round trips of C93; the reading is unique. |
| C115 | Model/Accept.v models Accept of retryListener and the loop of Serve on the list of what the listener gives, and, as a transition system, Serve of one listener beside Shutdown. Spec/Accept.v says what is done about each outcome from the number of temporary errors before it. Proved by induction on the list; stopping by an invariant and a measure. |
| C116 | Model/UserIdent.v models userIdent with SHA-256 as an oracle, and what runConn stores in and deletes from the ident server of Model/Identd.v. Spec/UserIdent.v has the live connections and, from C37, queries and the connections they concern. Two invariants by induction on runs; blocks and digits are injective. |
| C117 | Model/Quote.v models `network quote` with the choice of the network and the sending, with the parser of Model/Robust.v. Spec/Quote.v says by what name a network is listed and what the checks of networks demand; what a receiver reads of a text is that of Spec/Wire.v, lines are those of Spec/Lines.v. The reader of Spec/Wire.v and the parser are shown to agree by induction on the text. Partial: only if no network is called like the address of another; refuted otherwise. |
| C118 | Model/Inactive.v models ListInactiveUsernames over the SQLite database of Model/Sql.v. Spec/Inactive.v says, by the calls alone, when a user was created and last stored to have interacted. The row of such a user is followed through every call; times are compared by the order of their texts (C40). Model/PgInactive.v and Spec/PgInactive.v do the same over the PostgreSQL database of Model/Postgres.v, whose users are followed by number and whose times are rounded to microseconds. Every user of a database made by calls has such a history. |

## Trusted base

* Coq 8.16.1's kernel, and `coqchk` when the gate runs it.
* The reading of the Go code: the theorems are about the model. Nothing is
  extracted and the Go code was never run. Every definition cites its lines so
  that the correspondence can be checked by eye.
* **Axioms: none.** `Print Assumptions` beneath every property theorem prints
  "Closed under the global context". No theorem uses a standard library axiom
  (no functional extensionality, no classical logic, no reals). The modules of
  the standard library that `coqchk` loads declare some of their own (ssreflect's
  `Under_rel`), which no theorem of this development uses.
* Section variables are universally quantified in the theorems. They stand for
  code outside the model and are listed in "Oracles" below.

### Go semantics assumed

* Strings are byte strings. Where the code ranges over runes (`splitWords`,
  highlights) the model works on code points and covers valid UTF-8 only;
  otherwise it works on bytes.
* Map iteration order is arbitrary: an explicit permutation, or a quantified
  order, wherever the order can be observed.
* `int`/`int64` do not overflow, except in rate.go, MsgID and fileupload where
  the width is part of the model. Counters (`uint64` sequence numbers, batch
  references, labels) do not wrap.
* Each of soju's event loops (user, connection) handles one event at a time; the
  model's steps are those events. Concurrency is modelled explicitly where a
  property is about it: conn.go (C36), the service rendezvous (C61), crossing
  server lines (C50, C77).

### External code assumed (transcribed from documentation, not verified)

* `gopkg.in/irc.v4`: message, prefix and tag syntax (`Model/Message`).
* `go-bare`: varints, strings, unions (`Model/MsgID`).
* `encoding/base64`, `path.Clean`/`filepath.Join`, `strings.Split/Cut/Fields`,
  `strconv`, `time` layouts, `flag`: modelled in Base or in the file that uses
  them, including the error cases that can be reached.
* SQL (SQLite dialect): statement atomicity, UNIQUE / FOREIGN KEY / ON DELETE
  CASCADE, NULL comparison, ORDER BY with an arbitrary order of ties, rowid
  allocation as max+1. Full-text search is an oracle. See header of `Model/Sql`.
* SASL libraries: PLAIN is modelled; OAUTHBEARER is an oracle.
* bcrypt and the authenticators: an oracle `name -> password -> bool`.
* The file system: whole-file reads and appends; no I/O errors.

### Oracles (section variables)

| area | variable | stands for |
|---|---|---|
| AutoSave | `cm`, `oauth_parse`, `oauth_failure` | case mapping of the network; go-sasl OAUTHBEARER |
| Caps, Register | `atoi`, `parse_id` | `strconv.Atoi`, `strconv.ParseInt` |
| Delivery | `limit` | `backlogLimit` |
| Detach | `cm`, `me`, `server`, `service`, `chantypes`, `statusmsg`, `highlight` | fixed facts about the connection |
| FsStore | `parse` | the log line parser (instantiated by `ZncLog` in C55) |
| Highlight | `letter_or_number` | `unicode.IsLetter`/`IsNumber` |
| NetView | `parse_url`, `split_host_port`, `shuffle` | net/url, net; map order of the attributes (a permutation) |
| Networks | `parse_url`, `split_host_port`, `command_ok`, `config_max` | net/url, net, irc.ParseMessage, configuration |
| ReadMarker | `cm` | case mapping per network |
| Service | `D`, `local`, `refresh`, `kick`, `new_data` | commands that only concern the user's own networks and channels |
| Sql, SqlQuery | `raw_of`, `by_time*`, `by_latest*`, `fts` | message text, tie order, full-text search |
| UpReg | `order`, `sorted`, `parse_command`; of the server `first`, `rest`, `mech_ok`, `login` | map order (a permutation), the sort of GenerateJoin, irc.ParseMessage; what the server offers and accepts |
| ChanView | `cm`, `me`, `server`, `chantypes`, `avail`, `table`, `order` | facts about the connection that stay fixed; order of the map of modes in an answer (a permutation) |
| Push | `serial`, `vapid`, `parse_tags`, `cm`, `time_text` | how the database numbers rows (SQLite / PostgreSQL), the server's public key, irc.ParseTags, the case mapping of each network, the text of a time; answers and check results of endpoints are in the events |
| UploadHttp | `url_host`, `matches`, `parse_media`, `format_media`, `type_by_ext`, `exts_by_type`, `detect`; per request `e_plain`, `e_bearer`, `e_tokens`, `e_mkdir`, `e_open` | net/url, path.Match, mime, http.DetectContentType (no extension has a slash, the empty text is no media type); authenticators, random tokens, failures of the file system |
| Relay | `cm`, `host`, `server`, `statusmsg`, `admin`, `utags`, `detached`, `context` | facts about the connection that stay fixed while the texts are exchanged; the channel a nickname is a member of. User and host names in the prefix of the user are left out |
| Self | `cm` | case mapping of the network; lines of the server are given with their prefixes and masks parsed; storing records succeeds; registering is one step with any nickname and login |
| Addr | `key_ok`, `sha256`, `sha512`, `chain_ok` | parsing of private keys, hashes and x509 verification; `url.Parse` and `net.SplitHostPort` are modelled from the standard library, not taken from /repo |
| RateLimit | none | x/time/rate is modelled from the library, not taken from /repo, with integers instead of floating point; the context of a closed connection is not modelled |
| Listen | `starred` | RFC 2231 parameters of mime.ParseMediaType (hypothesis: nothing when there are none); net.ParseIP, net.ParseCIDR, mime.ParseMediaType and go-proxyproto's policies are modelled from the libraries, not taken from /repo |
| Config | `system_host`, `days`; per reload `w_raw`, `w_file`, `w_new_auth`, `w_cert` | os.Hostname, ParseFloat; the decoded file, other files, whether an OAuth server answers and PAM is built in, key pairs |
| ExtAuth | `sv_http`, `sv_introspect`, `sv_pam`, `url_ok` | answers of the authentication servers to each request (TLS, HTTP, JSON are not modelled), PAM, url.Parse; net/url.QueryEscape and Request.SetBasicAuth are modelled from the library |
| Migrate | `now`; the semantics of SQL | `exec` is written from the documentation of SQLite and PostgreSQL, not from /repo: constraints are checked per statement, SQLite deletes the rows of a dropped table first, references follow renamed tables; the schemas of version 1 are those of sqlite_test.go and postgres_test.go; transactions are atomic |
| Robust | `tags_of` (irc.ParseTags), `highlights` (isHighlight for a non-empty nickname, C25), `fails` (whether a handler without other modelled effect returns an error), `want` (the wanted nickname) | irc.ParseMessage and ParsePrefix are transcribed from the external library, with non-nil tags. Orders of range over maps in SetCaseMapping are those of the lists. The data races of messages handled before registration are not modelled, nor the message store, nor the goroutines that send Web Push. |
| Crash | `words_of` (splitWords, C34; a parameter here), `b64`, `plain_ok`, `oauth_ok` (go-sasl), `host`; each message carries answers to questions (limits, database failures, flags) and the identifier the database gives | panics inside database, message store, socket and flag-parsing code are not modelled, nor is what other users' goroutines do; network pointers are identifiers, deleted networks stay reachable through them; servers change channels and users arbitrarily (what they can crash is C99) |
| Wait | what commands do besides waiting (C34-C37, C100); times of contexts (a context may end at any moment); the number of lines a command prints | goroutines of connections, of the identd and HTTP servers and of database work; commands run for others that themselves wait (model has them, the positive theorems ask for ones that print); a user starting again after its goroutine ended |
| Search | strings.ToLower (any function); unicode.In for letters, numbers and private use (any predicate on code points); FTS5's MATCH on a sequence of quoted strings (every string occurs, nothing for none; occurrence is any relation); SQL ordering as in SqlQuery; an attribute occurs once in a request (tags are a map) | PostgreSQL's plainto_tsquery; sending the batch |
| Answers | nothing is older than 30 seconds (C25); the clients are those of one network; the connection is registered and has had its message of the day; the commands in `elsewhere` (which other models have) are left out; parse errors in 354 after it was sent on are left out; ids and labels stay below 2^64 (hypothesis of each step) |
| LogFiles | system calls fail only when a name exists or does not; parts of paths are not empty, and paths are equal iff their parts are (C16); the clock is strictly increasing between messages; one process writes the directory |
| Endpoint | the DNS (any function of the step and the name, asked only for names of letters, digits, "-", "_" and ".") and the answers of hosts; net/url, net and net/http of Go as read in their sources: url.Parse accepts colons in a host without brackets (Go before 1.26, and later with the go 1.19 of go.mod); no proxy in the environment; locations of redirections are absolute; all addresses of a name may be tried |
| ChanCmd | time.ParseDuration (a parameter), whether the database works (a parameter of each command), the order of Go maps and of sort.Slice among equal keys (the order of the lists). Left out: the messages to clients of attach and detach (Model/Detach.v), the timers, DetachedInternalMsgID, the texts of answers other than the listing, the rounding of float64 in the stored duration. |
| Postgres | PostgreSQL and lib/pq, as described at the head of Model/Postgres.v: constraints, cascades, transactions, limits of types, rounding of times (exact halves of a microsecond may go either way), text search and ORDER BY (parameters), identifiers of sequences (arguments). Left out: timeouts, lost connections, the upgrades of the schema (C98), WebPushConfig, metrics. |
| ZncImport | The list of unicode.IsSpace (Words.is_space), net/url's escaping of hosts in URL.String, and strings.Fields and TrimSpace as splitting at that list. Reading the file does not fail. Left out: flags and the configuration file of soju, logging, line numbers in errors, the PostgreSQL database (its StoreX functions are in C107). |
| MigrateDb | Listing does not fail and the source does not change meanwhile. SERIAL sequences give 1, 2, ... in a new database. Go's map of clients is gone through in order of first occurrence (the code: any order). Left out: the command line, logging, SQLite as the destination. |
| Vapid | The database does one statement at a time; a subscription is registered only when its test message was sent (the others are left out). The pair is what the library makes: that it is a pair of keys is not modelled, only that it is kept together. |
| MigrateLogs | Reading folders and files does not fail, every entry of a network's folder is a folder, lines are shorter than 64 KiB, the local time zone is UTC, numbers in file names have all their digits. SQLite as the destination; the users are those listed. |
| Stop | Users' events need nothing, the lock for a moment, or make a user; commands that wait for other users are in Wait (C101). Map order of Server.users is the order of a list (any). Listeners, the loop for inactive users and the admin socket are left out. |
| Lines | irc.ParseMessage as in Robust: only blanks split parameters. Tags are left out on the way to the server (irc.v4 escapes line ends in them). Of the commands only PRIVMSG, NOTICE and those passed on unchanged. `tags_of` is irc.ParseTags. |
| ValidText | strings.ToValidUTF8 and utf8.DecodeRuneInString are transcribed from Go's standard library; its first loop, which only skips what is valid, is left out. |
| Accept | What net.Listener's Accept returns is an input; a closed listener gives net.ErrClosed, which is no temporary error. Sleeping takes no step in the transition system; errors that end Serve early are only in the first part. |
| UserIdent | sha256.Sum256 is any function (with 32 bytes where this matters). The moment between the connection being made and its ident being stored is left out: a server that asks at once may be told of nobody. |
| Quote | The parameters are those after the command line was split (C34). Commands with tags or a prefix are sent too but nothing is claimed of their form. |
| Inactive, PgInactive | The loop of the server that disables the users listed is in C88, over an abstract list. |
| Glob | none | path.Match and utf8.DecodeRuneInString are modelled from the standard library |
| Activity | `hash`, `verify`, `cost` | bcrypt; hypotheses: the hash of a password accepts it and no other, and has the cost asked for |

## What is modelled, by file

| file | modelled | not modelled |
|---|---|---|
| auth/*.go | internal.go (C89), http.go and oauth2.go (C96) | HTTP, TLS and JSON themselves, PAM |
| certfp.go | all | |
| cmd/, contrib/ | `sojudb change-password` (C89), listeners of main.go (C92), `loadConfig` and SIGHUP (C95) | argument parsing, migrations, ZNC import |
| config/config.go | all but the syntax (C91, C93, C94) | scfg reader |
| conn.go | write queue, close (C36), rate limiter (C87) | TLS, WebSocket, reads |
| database/database.go | records, `GetNick`, `URL`, passwords (C89) | bcrypt itself |
| database/sqlite.go | all tables, stores, queries on messages, schema migrations (Migrate) | metrics, prepared statements |
| database/postgres.go | all tables, stores and queries (C107, C109, C118), schema migrations (C98) | metrics, WebPushConfig, connection and timeouts |
| database/utils.go | `stripANSI` | |
| downstream.go | registration, CAP, SASL server, message filter, batches, backlog, NICK/SETNAME, JOIN/PART, WHO/WHOIS/NAMES, texts, INVITE, AWAY, MONITOR, CHATHISTORY, SEARCH, MARKREAD, BOUNCER, ISUPPORT/MOTD, WEBPUSH, questions of MODE and TOPIC | LIST relay, METADATA-like passthrough, VERIFY |
| fileupload/fileupload.go, fs.go | all (C38, C53, C83) | ranges, conditional requests and errors of `http.ServeContent`; texts of error messages of authenticators; directories among the files |
| fileupload/http.go | nothing | uploads to another server |
| identd/identd.go | all but the listener | |
| irc.go | all | |
| msgstore/memory.go, fs.go, db.go, msgstore.go, znclog | all | `RenameNetwork`, I/O errors, DST changes |
| rate.go | all | |
| server.go | accounts, `HandleAdmin` gate, user limits, `disableInactiveUsers` (C88) | listeners, metrics, creation of WebPush keys, WebSocket handshake |
| service.go | command tree, resolution, help, users, networks, SASL, certfp, channels, server | output texts |
| upstream.go | pending commands, labels, channels and members, WHO cache, ISUPPORT, nick, away, MONITOR, registration (CAP, SASL), texts, topics and modes | LIST/ERROR relay; sockets and TLS themselves |
| user.go | networks, channels, delivery receipts, backoff use, source addresses, account updates, highlight, push deliveries | identd calls, metrics |
| xirc/*.go | all | |

Each theorem's hypotheses that restrict executions are visible in its statement
and summarised in the note of the property in `MANIFEST.json`; partial theorems
have the suffix `_partial`, and the failing part is proved false in a theorem
with the suffix `_refuted` where the code violates it.

## Findings

Behaviours of the code that contradict a property are proved as theorems:

| theorem | behaviour |
|---|---|
| `C06_*_refuted`, `C07_*_refuted` | mode letters above 127 are duplicated, and encoded as two letters in a snapshot |
| `C08_*_refuted`, `C09_*_refuted` | `GenerateJoin`/`GenerateMonitor` do not count CRLF; an oversized target becomes an empty one |
| `C14_*_refuted` | memory store: `LastMsgID` is off by one, the next message is lost |
| `C16_*_refuted` | `EscapeFilename` is not injective |
| `C17_*_refuted` | ACTION without the usual terminator is normalised in the log |
| `C18_midnight_refuted` | file store: messages at exactly midnight of a later day are skipped |
| `C18_gap_refuted`, `C55_gap_refuted` | file store: 100 empty days in a row end the search |
| `C21_contradictory_request_refuted` | `CAP REQ "a -a"` is acknowledged and leaves a enabled |
| `C25_stale_refuted`, `C25_stale_blocks_queue` | a timed-out pending command blocks its queue for good |
| `C27_server_refuted`, `C27_context_refuted`, `C27_status_refuted` | texts of a detached channel that are shown |
| `C28_update_network_refuted`, `C28_first_session_refuted` | delivery receipts lost by a network update; nothing recorded in a first session without messages |
| `C30_set_refuted`, `C30_register_refuted`, `C30_panic_refuted` | empty credentials saved by `SET x y`; mixed credentials by a late REGISTER reply; panic after an aborted exchange |
| `C32_lookup_refuted` | a network's address shadows another network's name |
| `C34_*_refuted` | `splitWords` loses a word ending with an escaped blank |
| `C42_leading_zero_range_refuted` | `localTCPAddr` drops leading zero bytes |
| `C42_dual_stack_refuted` | upstream.go:2480-2489: IPv6 is preferred also if `upstream-user-ip` has an IPv4 range only. Users then reach servers that have both from the shared address of the machine, not from their own. |
| `C43_*_refuted` | negated ISUPPORT tokens are ignored |
| `C46_empty_refuted` | AWAY with an empty text counts as away |
| `C47_*_refuted` | highlights: left context forgotten after the first occurrence |
| `C48_*_refuted` | a user may be named like the service, the service accepts the nickname, NICK and INVITE of it pass |
| `C49_*_refuted` | empty second bound, service targets and unbound TARGETS are not refused |
| `C50_want_refuted`, `C50_race_refuted` | the wanted nickname is monitored every other time; a crossing notification leaves a client uninformed |
| `C53_upload_escapes_refuted` | user name `..` escapes the upload directory |
| `C56_setname_lost_refuted` | SETNAME is reverted by a later NICK |
| `C59_console_help_refuted` | the console's help omits the group `server` |
| `C61_self_delete_refuted`, `C61_run_delete_refuted` | deleting one's own account deadlocks |
| `C65_line_length_refuted` | CAP LS exceeds 512 bytes |
| `C68_*_refuted` | refused connections stay active |
| `C70_*_refuted`, `C71_crash_refuted` | detached channels: unannounced detaching, connecting during NAMES, deletion; panic between JOIN and end of NAMES |
| `C72_commands_refuted` | one empty connect command is read back as none |
| `C73_order_refuted` | database backlog: order by time, filter by id |
| `C75_escape_refuted` | escape sequences in ISUPPORT values are escaped twice |
| `C76_*_refuted` | WHO cache: CHGHOST, MONITOR offline, own away state, unlisted channel |
| `C79_*_refuted` | network notifications: removed attributes, errors cleared by an update and NICK are not announced; a replaced connection announces its state or error under the same ID; the capability requested after registration gives no list |
| `C80_*_refuted` | registration: several CAP LS lines addressed to the nickname end the negotiation before sasl is seen (`msg.Params[len(subParams)-2]`); echo-message is requested because labeled-response is offered, so a NAK of all hangs a registration with SASL; 421 for AUTHENTICATE never leads to CAP END |
| `C81_*_refuted` | push: with SQLite row numbers are reused, so a late 404 deletes the subscription of another client or user; with 26 subscriptions none can be renewed (`len(subs) > 25` is tested before the endpoint is looked up); the subcommand is case-sensitive although doc/ext/webpush.md says otherwise; a running delivery still sends after the answer to UNREGISTER; pushTargets is lost with a change of the network and overwritten by an older text; subscriptions of clients bound to no network never get anything |
| `C82_*_refuted` | topics: a channel without a record that is left with the reason "detach" is detached without telling the clients, who hear no more of it; the topic is answered "No topic is set" between JOIN and 332; the server's answer about a detached channel being joined reaches nobody |
| `C83_*_refuted` | uploads: a body found too long, or broken off, leaves a partial file that is served; the link for a user name with a colon has another scheme; a disposition without file name names the file `.` and loses the extension |
| `C84_*_refuted` | texts, without echo-message: one for the operators of a channel (`@#chan`) is kept as another channel's and shown when detached, one with a channel context is kept with the nickname; when capabilities change: CAP DEL labeled-response shows clients their own texts, CAP DEL echo-message loses a text on the way, CAP NEW shows and keeps one twice, labeled-response without echo-message shows and keeps the bouncer's label |
| `C85_*_refuted` | own identity: NICK while disconnected is told to the client that asked only; a client without network is welcomed with the user name, whatever nickname was chosen; `user update -nick/-realname` is told to no client without network; SETNAME to a realname that is no longer current is confirmed and not done; a realname set with SETNAME is not used by the next connection (the network in memory keeps the old one); a user name is never told when chghost is enabled later; a mask without user name gives a CHGHOST with an empty parameter |
| `C86_*_refuted` | addresses: a fingerprint accepts a connection when any certificate of the list presented has it, not only the one whose key the server holds, and certificates are public; a change of port or tls of a network with an IPv6 address loses the brackets and makes an address that cannot be dialled; a host attribute that contains irc+insecure:// overrides tls=1; ADDNETWORK/CHANGENETWORK with the nickname equal to the user name gives the default nickname of the user |
| `C88_*_refuted` | inactive accounts: a client that connects between the check for clients and the update is thrown out and the account disabled; the end of a session at shutdown is not stored, so a user connected until the restart is taken for inactive since they connected; an account that an admin enables is disabled again by the next round |
| `C89_*_refuted` | passwords: a login that upgrades a weak hash stores the whole record read before, and so undoes a change of the password and of the administrator's rights made meanwhile; the upgrade itself is undone by the next write of the copy in memory; `sojudb change-password` is undone when a client connects; connections authenticated before the change and registered after it stay; a user's own change disconnects nobody |
| `C90_*_refuted` | detaching: a timer that has fired detaches even if a message comes first; KICK and a second JOIN leave the timer of the old channel running, which detaches the channel early when it is joined again; a message to the operators of the channel does not count as sending; a channel created with -detach-after while joined, or that the database failed to delete, has no timer |
| `C91_*_refuted` | behind two proxies, X-Forwarded-For is a list: the client's host has a space in it and clients misread every line with their own prefix; a Forwarded header with two elements is not understood, and all clients get the proxy's address |
| `C92_*_refuted` | `unix://dir/sock` listens on `dir/sock` but changes the mode of `/sock` (a failure is logged only); `http+unix://dir/sock` and `ws+unix://dir/sock` listen on `/sock`; `ircs://host:` listens on a port the system chooses |
| `C93_*_refuted` | the manual refers to glob(7), but `[!a]` matches `!` and `a`; brackets that match a slash are not always tried (`*[^a]*b` and `x/b`) |
| `C95_*_refuted` | the manual says the message store cannot be reloaded: users started after a reload use the new one, and after a reload from memory to fs or db clients of running users are offered draft/chathistory, which their store does not have, and get no playback |
| `C96_*_refuted` | HTTP authentication: the user name `bob:x` with password `y` is sent as user `bob` with password `x:y`, so bob's password opens an account `bob:x` (with enable-user-on-auth it is created); OAuth user names with @ or / get in with OAUTHBEARER but never with the token as password |
| `C98_*_refuted` | with SQLite, a database older than version 14 in which a network has a channel or delivery receipt cannot be upgraded (`DROP TABLE Network` with foreign keys enabled fails; `C98_fails_sqlite` shows this for all such databases), and soju does not start; push subscriptions that are not for one network are of nobody after the upgrade from versions up to 16, where a new database requires a user |
| `C99_*_refuted` | a line such as `: ACCOUNT x` from any server ends the whole process before registration (no recover in network.run) and the user's session after it; `001` with an empty nickname, then a text in a saved channel; a text during the join of a detached self-reattaching channel; 903 after a client restarted its login; an extended WHO reply with an empty nickname |
| `C100_*_refuted` | `PRIVMSG BouncerServ,BouncerServ :network delete -x` from a client bound to a network: the first deletes the current network (a missing name means the current one, also with a bogus flag), the second panics and the user is stopped until restart; JOIN of a detached channel whose NAMES reply is under way; AUTHENTICATE restarted before the server's 903; WHO for a name under which a server has put a user; any command that needs the account from a client of a disabled account |
| `C101_*_refuted` | `user update` waits for the other goroutine's answer without looking at its context (service.go:1128): two administrators updating each other at once hang for ever, and so does one updating a user whose goroutine panics or stops before answering. `user run` gives up after ten seconds, but the other goroutine goes on writing to the channel of room one that nobody reads: that user hangs for ever. A message to `$host` sends to every channel of events, the sender's own too, holding the lock of the server: with 64 events waiting the sender hangs with the lock and no login succeeds any more. `user delete` of oneself waits for oneself |
| `C102_*_refuted` | with `after`, the database store returns the latest matching messages instead of searching from that time (TakeLast is set always, msgstore/db.go:150-165), unlike the log store; a message exactly at `after` or `before` is not found although doc/ext/search.md says "at or after"; `from` is compared byte by byte although `in` is case-mapped; the log store gives up after 100 days without a match (fs.go:335). |
| `C103_*_refuted` | `twice`, `try_again`: 401 ends a WHOIS and 263 a WHO, but servers send 318 and 315 as well; the second line is sent to the next client in the queue, ends its query, and its answer is dropped, even with labels. `other`: 401 about a message to a nickname is taken as the answer to a WHOIS of that nickname by another client. `gone`: without labels, an error about the query of a client that has left is sent to all others. `all`: without labels, other lines (such as 301 within a WHOIS) are sent to all clients. |
| `C104_*_refuted` | `open_file`: open files are found by entity and by the name they were opened with, but `RenameNetwork` does not close them: after a network is renamed and another one gets the old name, messages of the latter are written to the log of the former (until another network logs the same entity, or the day ends). `left_over`: directories of deleted networks stay; renaming a network to such a name fails silently, and the network shows the log of the deleted one instead of its own. `deleted`: a new network with the name of a deleted one shows its log. |
| `C105_literal_refuted` | The check looks up the whole authority of the URL, the request goes to what is before the last colon: https://::1:443/ is checked as the address ::1:443 and requested from ::1, port 443; https://::ffff:a00:1:8080/ from 10.0.0.1, port 8080. Any client may make the bouncer connect to its own machine and network. |
| `C105_changed_refuted` | The name is looked up again for the request, and never checked again afterwards: a name whose address changes reaches any machine. |
| `C105_redirect_refuted` | Redirections are followed (up to 9), to any host and port, also without TLS. |
| `C105_near_refuted` | Link-local addresses (169.254.169.254, fe80::/10) and 0.0.0.0 are not refused. |
| `C105_usable_refuted` | Endpoints with a port, even 443, and IPv6 addresses are always refused: the lookup is of the text with port and brackets. |
| `C106_detached_refuted` | `channel create -detached true`, documented, creates a channel that is not detached. |
| `C106_failed_refuted` | `channel update -relay-detached message -detach-on never` is refused and yet sets the first option, in memory only. |
| `C106_database_refuted` | A channel that could not be stored stays in the list of channels, and is not joined. |
| `C106_after_refuted` | `-detach-after 1500ms` is two seconds after a restart. |
| `C106_bound_refuted` | A client bound to a network without a name is shown the channels of an earlier network with the same address. |
| `C106_slash_refuted` | A channel whose name has a slash is listed as `#a/b/net`, and this is read as channel `#a` of network `b/net`. |
| `C107_encoding_refuted` | With PostgreSQL, a message that is not UTF-8 is not kept in the history, and neither are those stored in the same call; SQLite stores them. |
| `C107_length_refuted` | With PostgreSQL, texts of more than 255 characters (connect commands: 1023 together) cannot be stored; SQLite stores them. |
| `C107_blank_refuted` | With PostgreSQL, a password of 255 characters followed by blanks is stored without the blanks. |
| `C107_seconds_refuted` | With PostgreSQL, a channel to be detached after 2^31 seconds or more cannot be stored. |
| `C108_footer_refuted` | znc-import: a footer that ends no section ends the file; everything after it is dropped and the import is reported as done. |
| `C108_twice_refuted` | znc-import: a second section for a new user makes the import give up half-way, with what came before it written (there is no transaction). |
| `C108_last_line_refuted` | znc-import: a file whose last line is a setting without a line break is refused. |
| `C108_six_refuted` | znc-import: an IPv6 server as ZNC writes it (no brackets) becomes an address with another host and a doubled port. |
| `C108_again_refuted` | znc-import: a network without a name is found by its address, which the import changes; importing the same file again fails. |
| `C109_owner_refuted` | migrate-db: the networks are listed with the user's number in the new database. After a user was deleted, networks go to other users, with their passwords, and their owners have none. |
| `C109_lost_refuted` | migrate-db: read markers and push subscriptions made without a network are not copied. |
| `C109_too_long_refuted` | migrate-db: SQLite has no limit for texts, PostgreSQL has. A user with a real name of 256 characters ends the copy; the users listed after them are missing. |
| `C110_two_refuted` | Nothing keeps two processes started at once on an empty database from keeping a pair of keys each; from then on no server starts any more ("expected zero or one Web push config"). |
| `C111_name_refuted` | migrate-logs: targets are stored under the name of their folder. The history of a channel such as #c++/dev is then under #c++-dev, where no client asks for it. (The code says that there is no way back.) |
| `C111_again_refuted` | migrate-logs: one line that cannot be read ends the copy for all users that follow; what was copied stays, so that the next run stores it a second time. |
| `C112_lookup_refuted` | server.go:383-393: Shutdown sends to full channels with the lock held. If a user's channel is full and the goroutine that should read it waits for the lock (any service command that looks up a user), both wait for ever. |
| `C112_panic_refuted` | The same when the goroutine has panicked (or was stopped by `user delete`) and waits for the lock to remove its user. |
| `C112_create_refuted` | server.go:404-418: createUser does not look at `shutdown`. A user created while the others finish (by a `user create` that was already queued, or a first login) is never told to stop; Shutdown waits for them for ever, the database is not closed. |
| `C113_frame_refuted`, `C113_command_refuted` | conn.go:48-65: a WebSocket frame is parsed as a message whatever line ends it has inside. They are passed on, so that one message becomes any number of lines for the server (and for other clients), at the price of one for the rate limit. |
| `C113_log_refuted` | Such a message is also written to the log as several lines: a user can forge messages of others in their history. |
| `C113_cr_refuted` | A CR inside a message is passed on. Servers that end lines with CR too read two lines. |
| `C115_late_refuted`, `C115_after_refuted` | If Shutdown is called while a goroutine is about to call Serve, the listener is added to the map after all listeners were closed. Nobody closes it: clients are still accepted, and Shutdown waits for it for ever, or has closed the database already. Serve should look at `shutdown` under the lock. |
| `C116_shared_port_refuted`, `C116_forgotten_refuted` | The ident server knows connections by the host and port of the server and the own port, without the own address. With `upstream-user-ip` two users have different addresses, and the operating system may give both the same port: a server that asks about the one is told the other, and as soon as either leaves that there is no user. |
| `C117_mixed_refuted` | getNetwork takes the first network whose address or name is the one given. A network without a name is listed by its address: if an earlier network has the same address (with another nickname), commands quoted for the one go to the other. |
| `C117_dash_refuted` | `network quote -x QUIT`: what begins with a dash is not taken for a name and dropped; the command goes to the network the client is bound to. |
| `C97_*_refuted` | with enable-user-on-auth, a client that authenticates with SASL, and completes registration only after its account is deleted, gets the account back (without password, even with internal authentication); of two simultaneous first logins of a new user, one is refused |
| `C77_stuck_refuted`, `C77_monitor_refuted` | regaining a nickname stops after an error other than 433; 433 shown to clients |

Observed while reading, not stated as properties:

* The issuer in OAuth metadata is not compared with the configured URL (RFC
  8414, 3.3); PASS with an empty account name that the HTTP server accepts
  uses the account ``; SASL PLAIN says "Authentication failed" whatever the
  reason, PASS says "Invalid credentials".
* In-memory changes are kept when the database store fails (SASL commands,
  `channel create`); `channel update` is not atomic.
* The name `*` is reserved by the service only, not by BOUNCER ADDNETWORK.
* `user create -admin true` is refused (flag package: boolean flags need `=`);
  `help <admin command>` shows the usage to everyone.
* Two admins acting on each other concurrently can deadlock.
* A prefix with an empty nickname in JOIN/NICK/SETNAME/ACCOUNT panics
  (upstream.go:2431); `ParseChannelStatus("")` panics.
* WEBPUSH accepts a 26th subscription (`len(subs) > 25`). Private TAGMSG (typing notices) are pushed like texts.
* A delivery that fails with an error deletes the row it listed when that was older than 30 days, even if the client has registered again meanwhile.
* PROXY headers are read inside TLS on ircs listeners (the listener of TLS is the inner one), where proxies send them outside. Behind Unix sockets no header is ever trusted.
* `identd.Delete` by an old connection removes a newer identical key.
* All texts of a line with several targets share one map of tags, which is changed for the next target while the connection's writer may be formatting the last (fatal "concurrent map iteration and map write"). An empty target (`a,,b`) gives a line without that parameter; a target that is refused drops those after it.
* WHOX with an empty middle field gives a corrupt line.
* TARGETS results with start after end are ordered differently by the file store
  and the database; Search with `after` gives first matches in one, last in the other.
* `eventUpstreamError` is handled by the user but sent by nobody.
* `BOUNCER CHANGENETWORK` of host, port or tls of a network with an IPv6 address loses
  the brackets of the host (`C86_six_refuted`).
* On joining, 333 is forwarded to clients before the topic (332 is held back until
  the end of NAMES) and sent again then. The time of a topic set later is the
  bouncer's clock. A question for the modes of a detached channel asked before
  the first 324 is never answered.
* Asking for `/uploads/<user>` tells whether this user has uploaded anything (a
  directory gives another error than a missing file). Downloads have no
  `nosniff`. Disabled users can upload: AuthPlain does not look at Enabled.

## Testing the theorems

`seeded/LOG.jsonl` records deliberate bugs put into a scratch copy of the model,
which theorems then failed, and what was tightened when none did.
