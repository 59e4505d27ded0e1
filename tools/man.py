import json
C=[]
def c(p,s,t,n=""): C.append(dict(property=p,status=s,theorems=t,note=n))
c("C01","proved",["C01_casemap_equivalence","C01_casemap_idempotent","C01_casemap_length","C01_strict_coarser_than_ascii","C01_rfc1459_coarser_than_strict"])
c("C02","proved",["C02_lookup_refines_history","C02_history_defines_lookup","C02_entries_exact","C02_entries_distinct","C02_len"])
c("C03","proved",["C03_set_casemapping","C03_all_entries_survive_refuted"])
c("C04","proved",["C04_membership_set"])
c("C05","proved",["C05_names_entry_roundtrip","C05_parse_exact","C05_single_prefix_is_highest"])
c("C06","partial",["C06_error_iff_malformed","C06_user_modes_set_semantics_partial","C06_non_ascii_letters_refuted"],"Set semantics hold for ASCII mode letters; for bytes above 127 the code duplicates letters (refuted with a witness). The error clause is proved for all strings.")
c("C07","partial",["C07_mode_snapshot_roundtrip_partial","C07_mode_snapshot_roundtrip_refuted","C07_modes_stay_consistent"],"Round trip proved for ASCII mode letters; refuted for bytes above 127, which Format encodes as two bytes.")
c("C08","partial",["C08_join_pairs_keys","C08_join_line_with_crlf_fits_refuted"],"Pairing, order and the 512 byte budget without CRLF are proved; counting CRLF the line can exceed 512 bytes (refuted with a witness).")
c("C09","partial",["C09_monitor_lists_targets_partial","C09_monitor_line_with_crlf_fits_refuted","C09_oversized_target_refuted"],"Proved for targets that individually fit a line; with CRLF a line can be 513 bytes long; an oversized target yields an empty target.")
c("C10","proved",["C10_isupport_tokens"])
c("C11","proved",["C11_sasl_chunks","C11_sasl_own_receiver"])
c("C12","proved",["C12_whox_roundtrip","C12_whox_options"])
c("C51","proved",["C51_names_reply"])
c("C52","proved",["C52_motd"])
c("C13","proved",["C13_load_after_message"])
c("C14","partial",["C14_backlog_from_position_partial","C14_backlog_from_position_refuted","C14_exactly_first_message_lost"],"Holds for targets without earlier messages; otherwise the code loses exactly the first message (refuted with a witness, exact loss proved).")
c("C15","proved",["C15_msgid_roundtrip","C15_msgid_injective","C15_msgid_rejects","C15_msgid_rejects_version","C15_invalid_target_undecodable"])
c("C16","partial",["C16_log_path_below_root","C16_log_paths_distinct_partial","C16_log_paths_distinct_refuted"],"Containment proved for all names; distinctness holds for names the escaping leaves unchanged, and is refuted in general (the escaping is not injective).")
c("C19","proved",["C19_strip_exact","C19_strip_laws"])
c("C20","proved",["C20_login_name_roundtrip"])
c("C34","partial",["C34_split_words_partial","C34_unterminated_errors","C34_backslash_blank_refuted"],"Proved for every mix of bare, quoted and escaped pieces except words that end with an escaped blank, for which the claim is refuted.")
c("C35","proved",["C35_backoff_delays","C35_backoff_bounded"])
c("C37","proved",["C37_ident_replies","C37_identity_unique"])
c("C38","proved",["C38_download_below_directory","C38_download_reaches_files","C38_store_never_overwrites"])
c("C53","partial",["C53_upload_then_download_partial","C53_upload_escapes_refuted"],"Proved for user names that are safe path components; a user named '..' escapes (refuted).")
c("C17","partial",["C17_message_roundtrip_partial","C17_notice_roundtrip","C17_unusual_action_refuted"],"Proved for PRIVMSG, NOTICE and standard ACTION; an ACTION without the usual terminator is normalised by the log (refuted with a witness).")
c("C41","proved",["C41_text_order","C41_tag_roundtrip","C41_column_roundtrip"])
c("C54","proved",["C54_event_roundtrip","C54_events_skipped"])
c("C18","partial",["C18_before_window_partial","C18_after_window_partial","C18_midnight_refuted","C18_gap_refuted"],"Proved for logs without 100 empty days in a row and, for queries after a time, without messages at exactly midnight; both restrictions are necessary (refuted with witnesses). Local zone without transitions.")
c("C55","partial",["C55_backlog_after_message_partial","C55_backlog_from_position_partial","C55_latest_partial","C55_conversation_partial","C55_gap_refuted"],"Proved for histories without 100 empty days in a row, end to end with the log format; refuted after such a gap. Local zone without transitions.")
c("C36","proved",["C36_written_in_order","C36_graceful_shutdown","C36_refused_after_close","C36_no_write_after_close","C36_closed_once"])
c("C24","proved",["C24_queries_serialised","C24_disconnect_answers_all"])
c("C25","partial",["C25_stale_blocks_queue","C25_stale_refuted"],"The statement is false: the code copies the queue down without truncating it, so that a stale query blocks its queue for good (proved in general and by a witness).")
c("C26","proved",["C26_labels"])
c("C31","proved",["C31_limit","C31_limit_later"],"All network-changing commands of a user are modelled (service, BOUNCER, login auto-save, NICK, SETNAME, SASL, user update); URL parsing is a parameter.")
c("C32","partial",["C32_names_distinct","C32_lookup_partial","C32_lookup_refuted"],"Names are distinct; lookup by name is refuted when another network has the name as its address.")
c("C56","partial",["C56_restart_partial","C56_setname_lost_refuted"],"Proved for all commands that do not change memory and database separately; refuted for SETNAME on servers with the setname capability: a later NICK reverts the stored real name.")
c("C57","proved",["C57_no_unix_socket"],"")
c("C58","proved",["C58_fingerprint","C58_notation_irrelevant"],"")
c("C28","partial",["C28_exactly_once_partial","C28_new_target_partial","C28_first_session_refuted","C28_update_network_refuted"],"From the first message a client got for a target on, every logged chat message is delivered exactly once and in order, for clients that answer PINGs, one connection at a time, within the backlog limit and without network updates. The claim from the first connection on is refuted, and network updates lose the receipts (refuted).")
c("C29","proved",["C29_reports_maximum","C29_forward_only","C29_advance_broadcast","C29_answered"],"For a fixed case mapping of each network, and a clock after the first millisecond of year 1. Push notifications are left out.")
c("C33","proved",["C33_resolution","C33_table_distinct","C33_order_independent","C33_privileged_calls","C33_confined"],"The commands about networks, channels, certificates and SASL are an arbitrary function of the user's own account and data. Commands are atomic.")
c("C59","partial",["C59_user_help","C59_help_printed","C59_console_help_refuted","C59_console_help"],"Proved for users. Refuted for the administration socket, where the commands of the group server run but are not listed.")
c("C60","proved",["C60_console_gate"],"Lines are given as their command and the words of the first parameter.")
c("C61","partial",["C61_completes_partial","C61_self_delete_blocks","C61_self_delete_refuted","C61_run_delete_refuted"],"Refuted: the confirmed deletion of one's own account makes the user's goroutine wait for its own end. Proved for all other commands but user run, without concurrent commands of other users.")
c("C62","proved",["C62_accounts_consistent"],"Commands are atomic.")
c("C63","proved",["C63_mode_line_values","C63_mode_line_members","C63_mode_line_rejected"],"Position-based semantics of MODE lines: values, statuses, rejection.")
c("C21","proved",["C21_enabled_advertised","C21_request","C64_offer_known","C21_contradictory_request_refuted"],"C64_offer_known also states that cap-notify stays enabled. strconv.Atoi is a parameter; strings.Fields/ToLower/ToUpper are modelled for ASCII. A request naming a capability with both signs is acknowledged and may leave it enabled (refuted for that case).")
c("C64","proved",["C64_offer_known","C64_enabled_known"],"Hypotheses: map iteration is a permutation, upstream account-registration values contain no blank, the client does not lower its version, requests are coherent (second theorem).")
c("C65","partial",["C65_line_length_refuted"],"The property is false: the reply is never split (a TODO in the code) and exceeds 512 bytes in a realistic state.")
c("C22","proved",["C22_permitted","C22_unchanged","C22_dropped","C22_rest"],"The tags of a message are a map (no duplicate names); the configured host name is not the placeholder. With message-tags every tag may be sent except a non-empty batch tag without the batch capability.")
c("C66","proved",["C66_batches_read","C66_without_batch"],"The uint64 counter of batch references is not wrapped around. Messages of the handlers are ordinary: no BATCH command and no batch tag of their own.")
c("C23","proved",["C23_registered_authenticated"],"A registered client presented credentials of its account that the authenticator accepted at that point; the authenticator, the OAUTHBEARER parser, db.GetUser and the map order are parameters.")
c("C67","proved",["C67_pass","C67_sasl_plain","C67_sasl_plain_admin","C67_sasl_plain_wrong"],"Completeness of the registration for PASS and SASL PLAIN.")
c("C68","partial",["C68_disabled_refuted","C68_no_network_refuted"],"The property is violated: user.go:738-760 leaves the refused connection open; for a disabled account a command that uses dc.user panics the goroutine of the user.")
c("C69","proved",["C69_update_other","C69_update_self","C69_create"],"The exact effect of user update and user create, for every list of flags and every way to write them; the package flag is modelled (parse_flags).")
c("C47","partial",["C47_mention_found","C47_exact_partial","C47_highlight_sound_partial","C47_left_context_refuted","C47_uri_refuted","C47_overlap_refuted"],"Every isolated mention outside URIs is found (for nicknames whose occurrences do not overlap), and the answer is exact when the nickname and \"://\" occur once; irc.go:263-282 forgets the text before an occurrence, which makes other texts highlights. Texts are lists of code points; unicode letters are a parameter.")
c("C27","partial",["C27_silent_partial","C27_silent_clients_partial","C27_relay","C27_reattach","C27_server_refuted","C27_context_refuted","C27_status_refuted"],"Proved for all events: nothing about a detached channel is forwarded, texts are relayed exactly as the filters say, and only the listed events attach. Refuted for texts of the server itself, for texts with a +draft/channel-context tag naming another channel, and for texts of another client to @#channel.")
c("C70","partial",["C70_hidden_partial","C70_shown_partial","C70_hidden_refuted","C70_connecting_refuted","C70_deleted_refuted"],"Both directions hold by induction over all histories without three kinds of events; each of the three breaks the property (witnesses).")
c("C71","partial",["C71_cause","C71_crash_refuted"],"The property is false of the code: joining a detached channel between JOIN and RPL_ENDOFNAMES panics. Proved: this is the only cause.")
c("C30","partial",["C30_saved_partial","C30_other_mechanism","C30_nickserv","C30_nickserv_other","C30_accepted","C30_stored","C30_set_refuted","C30_register_refuted","C30_panic_refuted"],"In all runs, credentials saved automatically were supplied by the user, except that SET commands to NickServ other than SET PASSWORD save empty credentials (C30_set_refuted). Another mechanism is never replaced. While the database works, stored and in-memory credentials agree. Two further deviations: a late reply to REGISTER pairs an account with the password of another (C30_register_refuted); aborting an exchange before the server answers panics (C30_panic_refuted).")
c("C39","proved",["C39_user","C39_network","C39_postgres","C39_new_network","C39_new_user"],"For all databases written through the interface, with subscriptions stored for networks of the same user as the callers do. Every statement of the transactions is checked against all constraints of the schema.")
c("C72","partial",["C72_user","C72_network","C72_channel","C72_delivery","C72_delivery_works","C72_read","C72_subscription","C72_commands_refuted"],"Proved for all records, for connect commands without line breaks; one empty connect command alone is read back as no command (C72_commands_refuted).")
c("C40","proved",["C40_list","C40_before","C40_after","C40_store","C40_messages"],"Order of equal times and full-text matching are parameters; SQL semantics of the statements is trusted.")
c("C73","partial",["C73_exact_partial","C73_ties_partial","C73_none_lost","C73_order_refuted"],"Exact when the target's messages were stored in the order of their times; refuted otherwise (a message with an earlier server time stored later is loaded again). No text is ever lost below the limit.")
c("C74","proved",["C74_targets"],"")
c("C43","partial",["C43_settings_partial","C43_ignored_refuted","C43_negation_refuted"],"All parameters, the case mapping, channel modes, types, status prefixes, memberships and rate after any sequence of announcements that only set values; the statement fails for negated tokens, which are ignored (proved for every such token, with a concrete server as witness).")
c("C75","partial",["C75_raw","C75_same_partial","C75_waiting_partial","C75_escape_refuted","C43_negation_refuted"],"Whatever the moment the client connects it reads the last value as sent; equal to the direct view without escape sequences and negations. Both exceptions are refuted: escape sequences are escaped a second time, negated tokens are dropped. After a reconnection, parameters the new connection no longer announces stay known to clients (not modelled).")
c("C44","proved",["C44_mirror"],"against a ground-truth server (connections, joins, parts, kicks, quits, nicknames, modes, listings): no message refused, own nickname, channels, members and statuses agree after every run; the tables announced by the server are fixed during the run; statuses exactly only with multi-prefix")
c("C76","partial",["C76_who_partial","C76_unlisted_refuted","C76_own_away_refuted","C76_host_refuted","C76_monitor_refuted"],"Proved by induction over all server runs for plain servers (no CHGHOST, no MONITOR, members listed before we leave), excepting our own account and away state. Refuted: a channel whose members have not been listed is answered with a partial list; our own away state is never updated in the cache; CHGHOST does not update the cached host; a monitored user that went offline is still answered.")
c("C45","proved",["C45_fallback","C45_bounded"],"The whole conversation with a server that refuses any set of nicknames, and the bound on what is asked for against any server.")
c("C77","partial",["C77_no_crash","C77_starts","C77_retries_partial","C77_goes_on","C77_quiet_partial","C77_stuck_refuted","C77_monitor_refuted"],"Holds for servers without MONITOR that answer attempts by accepting them or by 433. An attempt refused by another numeric blocks all later ones (refuted), and with MONITOR the refusal of an attempt is shown to clients (refuted).")
c("C46","proved",["C46_away","C46_asked","C46_sparing","C46_empty_refuted"],"For every sequence of events of a user, with any number of networks and clients. Being away is what the client was last told; a client that sends AWAY with an empty text is told that it is away, unlike on servers (refuted beside).")
c("C49","partial",["C49_limit","C49_fs_limit","C49_db_limit","C49_meaning","C49_db","C49_targets","C49_malformed_partial","C49_search_limit","C49_fs_search_limit","C49_db_search_limit","C49_empty_bound_refuted","C49_service_refuted","C49_unbound_refuted"],"The limit holds for every request, with both stores. Malformed requests get an error except: an empty second bound counts as none, requests about the service are answered with an empty batch, and so is TARGETS without a network (all refuted with witnesses).")
c("C50","partial",["C50_covered_partial","C50_no_excess","C50_sync_partial","C50_want_refuted","C50_race_refuted"],"The server's list covers the clients' lists in all runs where no notification crosses a command ending it, and has no excess beyond what is being notified, in all runs. In general false: the wanted nickname is monitored only every other time, and a crossing notification leaves a client without notifications.")
c("C78","proved",["C78_relay","C78_full","C78_told","C78_list"],"")
c("C48","partial",["C48_from_server","C48_no_text_partial","C48_to_server","C48_split","C48_reached_partial","C48_not_asked_partial","C48_not_taken_partial","C48_username_refuted","C48_command_refuted","C48_rename_refuted","C48_invite_refuted"],"Holds for texts in both directions, for all spellings and case mappings, and for NICK of clients. In general false: users may be named like the service, the service accepts the nickname, NICK of other users to it is forwarded, and INVITE of it is sent to the server.")
c("C79","partial",["C79_networks","C79_name_state_partial","C79_attributes_partial","C79_quiet","C79_username_refuted","C79_error_refuted","C79_nickname_refuted","C79_late_state_refuted","C79_late_error_refuted","C79_late_cap_refuted"],"The set of networks is proved for all runs; names and states unless an object that was replaced speaks late; other attributes as long as no event changes them silently. The silent changes (removed attributes, error cleared by an update, NICK), the late announcements and the capability requested after registration are refuted with witnesses.")
c("C80","partial",["C80_registers","C80_secret","C80_listing_partial","C80_listing_refuted","C80_registers_refuted","C80_unknown_command_refuted"],"Registration against a server that follows the specifications, and the password against any server. Refuted: a list of capabilities in several lines addressed to the nickname instead of * (upstream.go:720 looks at the wrong parameter); a server with labeled-response but without echo-message; a server that does not know AUTHENTICATE.")
c("C81","partial",["C81_recipients","C81_worth","C81_each_once","C81_reached_partial","C81_accepted_partial","C81_tested","C81_dismissed_partial","C81_unbound","C81_reached_refuted","C81_accepted_refuted","C81_case_refuted","C81_unregistered_refuted","C81_dismissed_refuted","C81_unbound_refuted"],"Recipients, reasons, at-most-once and the test request are proved for all runs; that working endpoints are reached for databases that never reuse row numbers (PostgreSQL). Refuted: with SQLite a late answer deletes the row of another user; with 26 subscriptions none can be renewed; marks after a change of the network or texts out of order are not notified; a delivery under way outlives UNREGISTER; clients bound to no network get nothing.")
c("C82","partial",["C82_topic_partial","C82_modes_partial","C82_topic_answer_partial","C82_modes_answer_partial","C82_topic_refuted","C82_topic_answer_refuted","C82_lost_answer_refuted"],"Proved for all runs in which only saved channels are detached. Missing: runs in which an unsaved channel is detached (refuted: clients are not told and keep a stale topic). An answer given before the server has told the topic may say there is none (refuted); the theorem on answers is for channels the server has finished telling about. Presence in channels is C70.")
c("C83","partial",["C83_stored","C83_uploaded_partial","C83_headers","C83_foreign","C83_shown","C83_refused_partial","C83_refused_refuted","C83_colon_refuted","C83_noname_refuted"],"All requests, interleavings of bodies, failures and restarts. Refuted: an upload that fails in the middle leaves a partial file that is served; the link of a user whose name has a colon; the name of a file whose disposition has none. MIME parsing and tables are oracles.")
c("C84","partial",["C84_seen","C84_kept","C84_determined","C84_sent","C84_transport","C84_seen_local_partial","C84_kept_local_partial","C84_status_refuted","C84_context_refuted","C84_unlabeled_refuted","C84_lost_refuted","C84_twice_refuted","C84_label_refuted"],"Proved for all runs without capability changes: with echo-message and labeled-response in full, without them for texts with no status prefix and no channel context. Refuted with witnesses for those, and for four situations in which the server changes its capabilities or offers only one of the two.")
c("C85","partial",["C85_known","C85_account","C85_nick_connected","C85_nick_offline","C85_nick_unbound","C85_setname_connected","C85_setname_unbound","C85_offline_others_refuted","C85_welcome_refuted","C85_service_refuted","C85_setname_stale_refuted","C85_user_late_refuted","C85_empty_user_refuted","C85_setname_forgotten_refuted"],"Clients of a connected network know what the server said, for all runs; requests reach the server or the clients concerned. Refuted: other clients while disconnected, welcome without network, changes by the service, stale and forgotten realnames, late chghost, empty user name.")
c("C86","partial",["C86_dial","C86_default_port","C86_certificate","C86_socket","C86_tls","C86_name","C86_change","C86_change_other","C86_add","C86_nick_partial","C86_pin_partial","C86_pin_refuted","C86_six_refuted","C86_tls_attribute_refuted","C86_nick_refuted"],"Proved for all addresses and reachable users except where refuted: fingerprints are met by any certificate presented, IPv6 addresses lose their brackets when attributes change, hosts containing a scheme override tls, a nickname equal to the user name becomes the user's default nickname.")
c("C87","proved",["C87_window","C87_window_prompt","C87_tight","C87_wait","C87_needed","C87_clients","C87_each_once"],"Exact arithmetic instead of the floating point of x/time/rate; closing while waiting is not modelled. C87_tight shows that the extra message is reachable.")
c("C88","partial",["C88_selected_partial","C88_disabled","C88_refused","C88_welcomed","C88_reenabled","C88_race_refuted","C88_restart_refuted","C88_enable_refuted"],"Proved while the bouncer runs, the database works and hashes are of the current cost. Refuted: a client that connects while the sweep is under way, sessions that end with a restart, accounts enabled again by an admin.")
c("C89","partial",["C89_last_set_partial","C89_login","C89_closed","C89_upgrade_race_refuted","C89_sojudb_refuted","C89_late_refuted","C89_own_refuted","C89_upgrade_refuted"],"Proved when no login is interrupted by other events and sojudb is not used, for a hash that accepts one password only. Refuted: logins that upgrade a hash during a change, sojudb while the bouncer runs, connections that arrive after the change, the user's own change, upgrades of weak hashes.")
c("C90","partial",["C90_quiet_partial","C90_who_detaches","C90_detached_partial","C90_reattached","C90_who_attaches","C90_race_refuted","C90_kick_refuted","C90_join_refuted","C90_sigil_refuted","C90_create_refuted","C90_delete_refuted"],"Not before: proved when events of timers do not cross activity, without kicks, repeated JOINs and messages to operators only; each of these is refuted. Then: proved unless a joined channel is created with the service or the database fails to delete it; both refuted. What attaches and detaches: proved in all executions.")
c("C91","partial",["C91_untrusted_http","C91_untrusted_proxy","C91_unix_proxy","C91_trusted_proxy","C91_trusted_forwarded","C91_trusted_x_forwarded_for","C91_accepted","C91_ranges","C91_one_address","C91_host_port","C91_host_alone","C91_proxy_chain_refuted","C91_forwarded_list_refuted"],"Proved for headers with one element; refuted for chains of proxies: the host gets a space (X-Forwarded-For) or is that of the proxy (Forwarded). net.ParseIP, net.ParseCIDR, mime.ParseMediaType are modelled from the standard library; RFC 2231 parameters are an oracle; go-proxyproto's listener is assumed to take the header's address with policy USE only.")
c("C92","partial",["C92_plain_text","C92_tls","C92_certificate","C92_admin","C92_debug","C92_tcp","C92_bare","C92_localhost","C92_debug_uris","C92_paths","C92_admin_default","C92_all","C92_both","C92_default","C92_relative_path_refuted","C92_empty_port_refuted"],"All documented forms and all safety statements proved; refuted for relative paths of Unix sockets and for an empty port. Failures of system calls are not modelled.")
c("C93","partial",["C93_accepted","C93_no_panic","C93_only_matching","C93_every_matching","C93_one_meaning","C93_with_slashes","C93_characters","C93_characters_only","C93_slashes_refuted","C93_negation_refuted"],"path.Match modelled byte by byte; sound for all hosts, complete for hosts without slash that are ASCII (or patterns without ? and brackets). Refuted: glob(7) negation [!a] is not negation; names with slashes. The WebSocket library's own use of the patterns is external.")
c("C94","proved",["C94_accepted","C94_values","C94_auth","C94_somebody","C94_listeners"],"go-scfg's syntax and strconv.ParseFloat are inputs.")
c("C95","partial",["C95_reloaded","C95_failed","C95_in_force","C95_in_force_one","C95_certificate","C95_fixed","C95_store","C95_backlog","C95_store_refuted","C95_backlog_refuted"],"Refuted for the message store: users started after a reload get the new one, and clients of running users are offered what their store cannot do. Everything else proved for all runs.")
c("C96","partial",["C96_http","C96_token","C96_not_client","C96_discovery","C96_well_known","C96_verified","C96_registered","C96_colon_refuted","C96_mail_refuted"],"Proved for user names without a colon (HTTP) and without @ and / (OAuth tokens used as passwords); refuted for the others. Servers are oracles constrained by http_honest/oauth_honest; TLS, HTTP and JSON are not modelled.")
c("C97","partial",["C97_served","C97_created","C97_unchanged","C97_internal_partial","C97_lets_in","C97_lets_in_new_partial","C97_deleted_refuted","C97_twice_refuted"],"Proved for all runs; no account from internal passwords needs that no account is deleted, and being let in that nobody else creates the account at the same time: both refuted otherwise with witnesses.")
c("C98","partial",["C98_atomic","C98_schema_sqlite_partial","C98_schema_postgres","C98_kept_sqlite","C98_kept_sqlite_old","C98_kept_postgres","C98_succeeds_sqlite","C98_succeeds_postgres","C98_fails_sqlite","C98_stuck_refuted","C98_subscription_refuted"],"Refuted in two points: SQLite databases older than version 14 with channels cannot be upgraded (C98_fails_sqlite: none can), and push subscriptions without network lose their user when upgrading from versions up to 16. Everything else is proved for all versions and rows; the SQLite schema comparison leaves out the default of User.created_at and NOT NULL of WebPushSubscription.user, which do differ.")
c("C99","partial",["C99_process","C99_user","C99_unnamed","C99_process_refuted","C99_nameless_refuted","C99_half_joined_refuted","C99_login_refuted","C99_whox_refuted"],"Every index, dereference and explicit panic of handleMessage is modelled. Refuted: a line whose source has no name (': ACCOUNT x') panics in cacheUserInfo; before registration no goroutine recovers it and the whole process ends for every user. An empty nickname in 001 makes the next text in a saved channel panic. Proved: with named sources the process never ends; with nicknames too, only the three coincidences with witnesses stop the user.")
c("C100","partial",["C100_user","C100_bound","C100_delete_refuted","C100_attach_refuted","C100_login_refuted","C100_who_refuted","C100_disabled_refuted"],"The unconditional claim (the session never stops) is refuted by five witnesses; C100_user shows these five coincidences are the only ones.")
c("C101","partial",["C101_steps","C101_rest","C101_each_other_refuted","C101_ended_refuted","C101_unheard_refuted","C101_everybody_refuted","C101_oneself_refuted"],"Proved for calm runs as stated; the five ways to hang named in the statement are proved as refutations of the unrestricted claim.")
c("C102","partial",["C102_request","C102_malformed","C102_log_before_partial","C102_log_after_partial","C102_quoted","C102_words","C102_db","C102_from_refuted","C102_bounds_refuted","C102_case_refuted","C102_gap_refuted"],"Requests, refusals, quoting and the rows of the database are proved for all inputs; log files for logs without 100 days in a row without a match (and, with an earliest time, without messages at midnight). Refuted: the database gives the last messages when asked for those from a time on; messages exactly at a bound are left out; nicknames are compared byte by byte; the log search stops after 100 days without a match. SQLite's MATCH on a sequence of strings is an assumption (is_match5).")
c("C103","partial",["C103_labelled","C103_one","C103_unlabelled_partial","C103_all_sent","C103_twice_refuted","C103_try_again_refuted","C103_other_refuted","C103_gone_refuted","C103_all_refuted"],"with labels, for every server that answers each query with one final line; without labels for the lines of LIST, WHO and WHOIS answers. Refuted for servers that send 401 and 318 (or 263 and 315), for errors about messages to a nickname with a WHOIS outstanding, and without labels for other lines and for errors after the client has left")
c("C104","partial",["C104_read_back_partial","C104_ids_partial","C104_open","C104_open_file_refuted","C104_left_over_refuted","C104_deleted_refuted"],"for all runs in which no network gets a directory that another network had; the bound on open files for all runs. Refuted otherwise: messages are written to the log of a renamed network, and logs of deleted networks are shown")
c("C105","partial",["C105_checked","C105_outside_partial","C105_usable_partial","C105_literal_refuted","C105_changed_refuted","C105_redirect_refuted","C105_near_refuted","C105_usable_refuted"],"Proved: every request goes to an endpoint that was checked when registered, first connection with TLS; with stable DNS, no redirections and endpoints without colons in the authority, all connections go with TLS to port 443 of machines elsewhere; usable endpoints with a host name and no port are accepted. Refuted for bare IPv6 authorities (https://::1:443/), names whose address changes, redirections, link-local addresses and 0.0.0.0; endpoints with ports or IPv6 addresses are refused although they work.")
c("C106","partial",["C106_update","C106_create_partial","C106_delete","C106_failed_partial","C106_stored_partial","C106_status","C106_status_bound_partial","C106_listed_partial","C106_detached_refuted","C106_failed_refuted","C106_database_refuted","C106_after_refuted","C106_bound_refuted","C106_slash_refuted"],"update, delete and the listing proved for all commands and states; create without -detached (ignored, refuted); failing commands change nothing unless the database fails or an update has several options (refuted); durations are stored in whole seconds (refuted); names with a slash and networks found by address refuted")
c("C108","partial",["C108_parse","C108_import_partial","C108_server","C108_footer_refuted","C108_twice_refuted","C108_last_line_refuted","C108_six_refuted","C108_again_refuted"],"Proved for files without two sections for the same user, network or channel. Refuted: stray footers end the file silently, a failure half-way keeps what was written, a last setting without line break is refused, IPv6 servers without brackets become another address, importing twice may fail.")
c("C110","partial",["C110_one_key_partial","C110_start_partial","C110_two_refuted"],"One key and a working start for all runs with one process at a time, with crashes anywhere; refuted when two processes are started at once on an empty database: no server starts any more.")
c("C111","partial",["C111_copied_partial","C111_text_partial","C111_ends","C111_name_refuted","C111_again_refuted"],"Exactly the messages that can be read in the files are added, in order, once, with their times, for one complete run and under the names of the folders; the run is complete if all files can be read; refuted for targets whose name is changed for the file system, and for a run after one that was broken off.")
c("C112","partial",["C112_stops_partial","C112_handled_partial","C112_closed_last","C112_lookup_refuted","C112_panic_refuted","C112_create_refuted"],"Proved without commands that need the server's lock and without panics; what users were given before is dealt with, also with such commands. Refuted with them: the server may never stop. That the database is closed last holds in every execution.")
c("C42","partial",["C42_address_in_range","C42_addresses_distinct","C42_error_iff_exhausted_partial","C42_dial_own","C42_dial_distinct","C42_leading_zero_range_refuted","C42_dual_stack_refuted"],"Containment and distinctness proved for all ranges, also for what is dialled; the error clause holds when the first byte of the range is not zero and is refuted otherwise. With a range of each family every connection leaves from the user's address; refuted with one of IPv4 only.")
c("C113","partial",["C113_tcp","C113_tcp_lenient_partial","C113_websocket_partial","C113_frame_refuted","C113_command_refuted","C113_log_refuted","C113_cr_refuted"],"Proved for all bytes of TCP clients (line end LF). Refuted for WebSocket frames with line ends inside, also for what is logged, and for CR inside messages with servers that take CR as a line end.")
c("C114","proved",["C114_valid","C114_unchanged","C114_mended","C114_ascii"],"")
c("C115","partial",["C115_served","C115_ended","C115_stops_partial","C115_late_refuted","C115_after_refuted"],"Accepting is proved in full. Stopping is proved for listeners that are known when the server is stopped; refuted for those that are about to be.")
c("C107","partial",["C107_user_partial","C107_network_partial","C107_channel_partial","C107_delivery_partial","C107_read_partial","C107_subscription","C107_messages","C107_works_partial","C107_create_user","C107_create_network","C107_create_channel","C107_listed","C107_last","C107_targets","C107_delete_user","C107_delete_network","C107_delete_channel","C107_delete_subscription","C107_encoding_refuted","C107_length_refuted","C107_blank_refuted","C107_seconds_refuted"],"Texts that are not UTF-8 or do not fit into their columns are refused (or lose trailing blanks), proved as refutations; for all others the statement is proved, also that creating users, networks and channels works unless a name is taken.")
c("C117","partial",["C117_named_partial","C117_current","C117_one_network","C117_mixed_refuted","C117_dash_refuted"],"Proved for users none of whose networks is called like the address of another, and for the network the client is bound to. Refuted otherwise: a network listed by its address can be mistaken for an earlier one with the same address; a name that begins with a dash is ignored.")
c("C109","partial",["C109_copy_partial","C109_users","C109_works","C109_sqlite_works","C109_owner_refuted","C109_lost_refuted","C109_too_long_refuted"],"Proved if the users of the source have the IDs 1, 2, ... in the order they are listed. C109_works, C109_sqlite_works: if what the source lists is within the limits of PostgreSQL's tables (lengths, 32-bit numbers, UTF-8; uniqueness follows from SQLite's schema), the copy runs to its end. Refuted in general: the networks are listed with the new ID of the user, so that networks and their passwords go to other users once a user was deleted; read markers and subscriptions without a network are not copied; a text that is too long ends the copy in the middle.")
c("C116","partial",["C116_told_partial","C116_only_live","C116_distinct","C116_form","C116_hashed","C116_shared_port_refuted","C116_forgotten_refuted"],"Proved for all runs in which no two connections share host, port and own port; refuted otherwise, which needs addresses per user. That only users with such a connection are named holds in all runs. SHA-256 is an oracle.")
c("C118","proved",["C118_listed","C118_long_gone","C118_postgres_listed","C118_postgres_long_gone"],"Both databases. SQLite: times in years 0 to 9999 and a limit other than the zero time, as of a clock. PostgreSQL rounds times to microseconds: exact for whole microseconds, otherwise but for one.")
json.dump({"claims":C},open('/verif/MANIFEST.json','w'),indent=1)
