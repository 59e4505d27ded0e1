{
 "claims": [
  {
   "property": "C01",
   "status": "proved",
   "theorems": [
    "C01_casemap_equivalence",
    "C01_casemap_idempotent",
    "C01_casemap_length",
    "C01_strict_coarser_than_ascii",
    "C01_rfc1459_coarser_than_strict"
   ],
   "note": ""
  },
  {
   "property": "C02",
   "status": "proved",
   "theorems": [
    "C02_lookup_refines_history",
    "C02_history_defines_lookup",
    "C02_entries_exact",
    "C02_entries_distinct",
    "C02_len"
   ],
   "note": ""
  },
  {
   "property": "C03",
   "status": "proved",
   "theorems": [
    "C03_set_casemapping",
    "C03_all_entries_survive_refuted"
   ],
   "note": ""
  },
  {
   "property": "C04",
   "status": "proved",
   "theorems": [
    "C04_membership_set"
   ],
   "note": ""
  },
  {
   "property": "C05",
   "status": "proved",
   "theorems": [
    "C05_names_entry_roundtrip",
    "C05_parse_exact",
    "C05_single_prefix_is_highest"
   ],
   "note": ""
  },
  {
   "property": "C06",
   "status": "partial",
   "theorems": [
    "C06_error_iff_malformed",
    "C06_user_modes_set_semantics_partial",
    "C06_non_ascii_letters_refuted"
   ],
   "note": "Set semantics hold for ASCII mode letters; for bytes above 127 the code duplicates letters (refuted with a witness). The error clause is proved for all strings."
  },
  {
   "property": "C07",
   "status": "partial",
   "theorems": [
    "C07_mode_snapshot_roundtrip_partial",
    "C07_mode_snapshot_roundtrip_refuted",
    "C07_modes_stay_consistent"
   ],
   "note": "Round trip proved for ASCII mode letters; refuted for bytes above 127, which Format encodes as two bytes."
  },
  {
   "property": "C08",
   "status": "partial",
   "theorems": [
    "C08_join_pairs_keys",
    "C08_join_line_with_crlf_fits_refuted"
   ],
   "note": "Pairing, order and the 512 byte budget without CRLF are proved; counting CRLF the line can exceed 512 bytes (refuted with a witness)."
  },
  {
   "property": "C09",
   "status": "partial",
   "theorems": [
    "C09_monitor_lists_targets_partial",
    "C09_monitor_line_with_crlf_fits_refuted",
    "C09_oversized_target_refuted"
   ],
   "note": "Proved for targets that individually fit a line; with CRLF a line can be 513 bytes long; an oversized target yields an empty target."
  },
  {
   "property": "C10",
   "status": "proved",
   "theorems": [
    "C10_isupport_tokens"
   ],
   "note": ""
  },
  {
   "property": "C11",
   "status": "proved",
   "theorems": [
    "C11_sasl_chunks",
    "C11_sasl_own_receiver"
   ],
   "note": ""
  },
  {
   "property": "C12",
   "status": "proved",
   "theorems": [
    "C12_whox_roundtrip",
    "C12_whox_options"
   ],
   "note": ""
  },
  {
   "property": "C51",
   "status": "proved",
   "theorems": [
    "C51_names_reply"
   ],
   "note": ""
  },
  {
   "property": "C52",
   "status": "proved",
   "theorems": [
    "C52_motd"
   ],
   "note": ""
  },
  {
   "property": "C13",
   "status": "proved",
   "theorems": [
    "C13_load_after_message"
   ],
   "note": ""
  },
  {
   "property": "C14",
   "status": "partial",
   "theorems": [
    "C14_backlog_from_position_partial",
    "C14_backlog_from_position_refuted",
    "C14_exactly_first_message_lost"
   ],
   "note": "Holds for targets without earlier messages; otherwise the code loses exactly the first message (refuted with a witness, exact loss proved)."
  },
  {
   "property": "C15",
   "status": "proved",
   "theorems": [
    "C15_msgid_roundtrip",
    "C15_msgid_injective",
    "C15_msgid_rejects",
    "C15_msgid_rejects_version",
    "C15_invalid_target_undecodable"
   ],
   "note": ""
  },
  {
   "property": "C16",
   "status": "partial",
   "theorems": [
    "C16_log_path_below_root",
    "C16_log_paths_distinct_partial",
    "C16_log_paths_distinct_refuted"
   ],
   "note": "Containment proved for all names; distinctness holds for names the escaping leaves unchanged, and is refuted in general (the escaping is not injective)."
  },
  {
   "property": "C19",
   "status": "proved",
   "theorems": [
    "C19_strip_exact",
    "C19_strip_laws"
   ],
   "note": ""
  },
  {
   "property": "C20",
   "status": "proved",
   "theorems": [
    "C20_login_name_roundtrip"
   ],
   "note": ""
  },
  {
   "property": "C34",
   "status": "partial",
   "theorems": [
    "C34_split_words_partial",
    "C34_unterminated_errors",
    "C34_backslash_blank_refuted"
   ],
   "note": "Proved for every mix of bare, quoted and escaped pieces except words that end with an escaped blank, for which the claim is refuted."
  },
  {
   "property": "C35",
   "status": "proved",
   "theorems": [
    "C35_backoff_delays",
    "C35_backoff_bounded"
   ],
   "note": ""
  },
  {
   "property": "C37",
   "status": "proved",
   "theorems": [
    "C37_ident_replies",
    "C37_identity_unique"
   ],
   "note": ""
  },
  {
   "property": "C38",
   "status": "proved",
   "theorems": [
    "C38_download_below_directory",
    "C38_download_reaches_files",
    "C38_store_never_overwrites"
   ],
   "note": ""
  },
  {
   "property": "C53",
   "status": "partial",
   "theorems": [
    "C53_upload_then_download_partial",
    "C53_upload_escapes_refuted"
   ],
   "note": "Proved for user names that are safe path components; a user named '..' escapes (refuted)."
  },
  {
   "property": "C17",
   "status": "partial",
   "theorems": [
    "C17_message_roundtrip_partial",
    "C17_notice_roundtrip",
    "C17_unusual_action_refuted"
   ],
   "note": "Proved for PRIVMSG, NOTICE and standard ACTION; an ACTION without the usual terminator is normalised by the log (refuted with a witness)."
  },
  {
   "property": "C41",
   "status": "proved",
   "theorems": [
    "C41_text_order",
    "C41_tag_roundtrip",
    "C41_column_roundtrip"
   ],
   "note": ""
  },
  {
   "property": "C54",
   "status": "proved",
   "theorems": [
    "C54_event_roundtrip",
    "C54_events_skipped"
   ],
   "note": ""
  },
  {
   "property": "C18",
   "status": "partial",
   "theorems": [
    "C18_before_window_partial",
    "C18_after_window_partial",
    "C18_midnight_refuted",
    "C18_gap_refuted"
   ],
   "note": "Proved for logs without 100 empty days in a row and, for queries after a time, without messages at exactly midnight; both restrictions are necessary (refuted with witnesses). Local zone without transitions."
  },
  {
   "property": "C55",
   "status": "partial",
   "theorems": [
    "C55_backlog_after_message_partial",
    "C55_backlog_from_position_partial",
    "C55_latest_partial",
    "C55_conversation_partial",
    "C55_gap_refuted"
   ],
   "note": "Proved for histories without 100 empty days in a row, end to end with the log format; refuted after such a gap. Local zone without transitions."
  },
  {
   "property": "C36",
   "status": "proved",
   "theorems": [
    "C36_written_in_order",
    "C36_graceful_shutdown",
    "C36_refused_after_close",
    "C36_no_write_after_close",
    "C36_closed_once"
   ],
   "note": ""
  },
  {
   "property": "C24",
   "status": "proved",
   "theorems": [
    "C24_queries_serialised",
    "C24_disconnect_answers_all"
   ],
   "note": ""
  },
  {
   "property": "C25",
   "status": "partial",
   "theorems": [
    "C25_stale_blocks_queue",
    "C25_stale_refuted"
   ],
   "note": "The statement is false: the code copies the queue down without truncating it, so that a stale query blocks its queue for good (proved in general and by a witness)."
  },
  {
   "property": "C26",
   "status": "proved",
   "theorems": [
    "C26_labels"
   ],
   "note": ""
  },
  {
   "property": "C31",
   "status": "proved",
   "theorems": [
    "C31_limit",
    "C31_limit_later"
   ],
   "note": "All network-changing commands of a user are modelled (service, BOUNCER, login auto-save, NICK, SETNAME, SASL, user update); URL parsing is a parameter."
  },
  {
   "property": "C32",
   "status": "partial",
   "theorems": [
    "C32_names_distinct",
    "C32_lookup_partial",
    "C32_lookup_refuted"
   ],
   "note": "Names are distinct; lookup by name is refuted when another network has the name as its address."
  },
  {
   "property": "C56",
   "status": "partial",
   "theorems": [
    "C56_restart_partial",
    "C56_setname_lost_refuted"
   ],
   "note": "Proved for all commands that do not change memory and database separately; refuted for SETNAME on servers with the setname capability: a later NICK reverts the stored real name."
  },
  {
   "property": "C57",
   "status": "proved",
   "theorems": [
    "C57_no_unix_socket"
   ],
   "note": ""
  },
  {
   "property": "C58",
   "status": "proved",
   "theorems": [
    "C58_fingerprint",
    "C58_notation_irrelevant"
   ],
   "note": ""
  },
  {
   "property": "C28",
   "status": "partial",
   "theorems": [
    "C28_exactly_once_partial",
    "C28_new_target_partial",
    "C28_first_session_refuted",
    "C28_update_network_refuted"
   ],
   "note": "From the first message a client got for a target on, every logged chat message is delivered exactly once and in order, for clients that answer PINGs, one connection at a time, within the backlog limit and without network updates. The claim from the first connection on is refuted, and network updates lose the receipts (refuted)."
  },
  {
   "property": "C29",
   "status": "proved",
   "theorems": [
    "C29_reports_maximum",
    "C29_forward_only",
    "C29_advance_broadcast",
    "C29_answered"
   ],
   "note": "For a fixed case mapping of each network, and a clock after the first millisecond of year 1. Push notifications are left out."
  },
  {
   "property": "C33",
   "status": "proved",
   "theorems": [
    "C33_resolution",
    "C33_table_distinct",
    "C33_order_independent",
    "C33_privileged_calls",
    "C33_confined"
   ],
   "note": "The commands about networks, channels, certificates and SASL are an arbitrary function of the user's own account and data. Commands are atomic."
  },
  {
   "property": "C59",
   "status": "partial",
   "theorems": [
    "C59_user_help",
    "C59_help_printed",
    "C59_console_help_refuted",
    "C59_console_help"
   ],
   "note": "Proved for users. Refuted for the administration socket, where the commands of the group server run but are not listed."
  },
  {
   "property": "C60",
   "status": "proved",
   "theorems": [
    "C60_console_gate"
   ],
   "note": "Lines are given as their command and the words of the first parameter."
  },
  {
   "property": "C61",
   "status": "partial",
   "theorems": [
    "C61_completes_partial",
    "C61_self_delete_blocks",
    "C61_self_delete_refuted",
    "C61_run_delete_refuted"
   ],
   "note": "Refuted: the confirmed deletion of one's own account makes the user's goroutine wait for its own end. Proved for all other commands but user run, without concurrent commands of other users."
  },
  {
   "property": "C62",
   "status": "proved",
   "theorems": [
    "C62_accounts_consistent"
   ],
   "note": "Commands are atomic."
  },
  {
   "property": "C63",
   "status": "proved",
   "theorems": [
    "C63_mode_line_values",
    "C63_mode_line_members",
    "C63_mode_line_rejected"
   ],
   "note": "Position-based semantics of MODE lines: values, statuses, rejection."
  },
  {
   "property": "C21",
   "status": "proved",
   "theorems": [
    "C21_enabled_advertised",
    "C21_request",
    "C64_offer_known",
    "C21_contradictory_request_refuted"
   ],
   "note": "C64_offer_known also states that cap-notify stays enabled. strconv.Atoi is a parameter; strings.Fields/ToLower/ToUpper are modelled for ASCII. A request naming a capability with both signs is acknowledged and may leave it enabled (refuted for that case)."
  },
  {
   "property": "C64",
   "status": "proved",
   "theorems": [
    "C64_offer_known",
    "C64_enabled_known"
   ],
   "note": "Hypotheses: map iteration is a permutation, upstream account-registration values contain no blank, the client does not lower its version, requests are coherent (second theorem)."
  },
  {
   "property": "C65",
   "status": "partial",
   "theorems": [
    "C65_line_length_refuted"
   ],
   "note": "The property is false: the reply is never split (a TODO in the code) and exceeds 512 bytes in a realistic state."
  },
  {
   "property": "C22",
   "status": "proved",
   "theorems": [
    "C22_permitted",
    "C22_unchanged",
    "C22_dropped",
    "C22_rest"
   ],
   "note": "The tags of a message are a map (no duplicate names); the configured host name is not the placeholder. With message-tags every tag may be sent except a non-empty batch tag without the batch capability."
  },
  {
   "property": "C66",
   "status": "proved",
   "theorems": [
    "C66_batches_read",
    "C66_without_batch"
   ],
   "note": "The uint64 counter of batch references is not wrapped around. Messages of the handlers are ordinary: no BATCH command and no batch tag of their own."
  },
  {
   "property": "C23",
   "status": "proved",
   "theorems": [
    "C23_registered_authenticated"
   ],
   "note": "A registered client presented credentials of its account that the authenticator accepted at that point; the authenticator, the OAUTHBEARER parser, db.GetUser and the map order are parameters."
  },
  {
   "property": "C67",
   "status": "proved",
   "theorems": [
    "C67_pass",
    "C67_sasl_plain",
    "C67_sasl_plain_admin",
    "C67_sasl_plain_wrong"
   ],
   "note": "Completeness of the registration for PASS and SASL PLAIN."
  },
  {
   "property": "C68",
   "status": "partial",
   "theorems": [
    "C68_disabled_refuted",
    "C68_no_network_refuted"
   ],
   "note": "The property is violated: user.go:738-760 leaves the refused connection open; for a disabled account a command that uses dc.user panics the goroutine of the user."
  },
  {
   "property": "C69",
   "status": "proved",
   "theorems": [
    "C69_update_other",
    "C69_update_self",
    "C69_create"
   ],
   "note": "The exact effect of user update and user create, for every list of flags and every way to write them; the package flag is modelled (parse_flags)."
  },
  {
   "property": "C47",
   "status": "partial",
   "theorems": [
    "C47_mention_found",
    "C47_exact_partial",
    "C47_highlight_sound_partial",
    "C47_left_context_refuted",
    "C47_uri_refuted",
    "C47_overlap_refuted"
   ],
   "note": "Every isolated mention outside URIs is found (for nicknames whose occurrences do not overlap), and the answer is exact when the nickname and \"://\" occur once; irc.go:263-282 forgets the text before an occurrence, which makes other texts highlights. Texts are lists of code points; unicode letters are a parameter."
  },
  {
   "property": "C27",
   "status": "partial",
   "theorems": [
    "C27_silent_partial",
    "C27_silent_clients_partial",
    "C27_relay",
    "C27_reattach",
    "C27_server_refuted",
    "C27_context_refuted",
    "C27_status_refuted"
   ],
   "note": "Proved for all events: nothing about a detached channel is forwarded, texts are relayed exactly as the filters say, and only the listed events attach. Refuted for texts of the server itself, for texts with a +draft/channel-context tag naming another channel, and for texts of another client to @#channel."
  },
  {
   "property": "C70",
   "status": "partial",
   "theorems": [
    "C70_hidden_partial",
    "C70_shown_partial",
    "C70_hidden_refuted",
    "C70_connecting_refuted",
    "C70_deleted_refuted"
   ],
   "note": "Both directions hold by induction over all histories without three kinds of events; each of the three breaks the property (witnesses)."
  },
  {
   "property": "C71",
   "status": "partial",
   "theorems": [
    "C71_cause",
    "C71_crash_refuted"
   ],
   "note": "The property is false of the code: joining a detached channel between JOIN and RPL_ENDOFNAMES panics. Proved: this is the only cause."
  },
  {
   "property": "C30",
   "status": "partial",
   "theorems": [
    "C30_saved_partial",
    "C30_other_mechanism",
    "C30_nickserv",
    "C30_nickserv_other",
    "C30_accepted",
    "C30_stored",
    "C30_set_refuted",
    "C30_register_refuted",
    "C30_panic_refuted"
   ],
   "note": "In all runs, credentials saved automatically were supplied by the user, except that SET commands to NickServ other than SET PASSWORD save empty credentials (C30_set_refuted). Another mechanism is never replaced. While the database works, stored and in-memory credentials agree. Two further deviations: a late reply to REGISTER pairs an account with the password of another (C30_register_refuted); aborting an exchange before the server answers panics (C30_panic_refuted)."
  },
  {
   "property": "C39",
   "status": "proved",
   "theorems": [
    "C39_user",
    "C39_network",
    "C39_postgres",
    "C39_new_network",
    "C39_new_user"
   ],
   "note": "For all databases written through the interface, with subscriptions stored for networks of the same user as the callers do. Every statement of the transactions is checked against all constraints of the schema."
  },
  {
   "property": "C72",
   "status": "partial",
   "theorems": [
    "C72_user",
    "C72_network",
    "C72_channel",
    "C72_delivery",
    "C72_delivery_works",
    "C72_read",
    "C72_subscription",
    "C72_commands_refuted"
   ],
   "note": "Proved for all records, for connect commands without line breaks; one empty connect command alone is read back as no command (C72_commands_refuted)."
  },
  {
   "property": "C40",
   "status": "proved",
   "theorems": [
    "C40_list",
    "C40_before",
    "C40_after",
    "C40_store",
    "C40_messages"
   ],
   "note": "Order of equal times and full-text matching are parameters; SQL semantics of the statements is trusted."
  },
  {
   "property": "C73",
   "status": "partial",
   "theorems": [
    "C73_exact_partial",
    "C73_ties_partial",
    "C73_none_lost",
    "C73_order_refuted"
   ],
   "note": "Exact when the target's messages were stored in the order of their times; refuted otherwise (a message with an earlier server time stored later is loaded again). No text is ever lost below the limit."
  },
  {
   "property": "C74",
   "status": "proved",
   "theorems": [
    "C74_targets"
   ],
   "note": ""
  },
  {
   "property": "C43",
   "status": "partial",
   "theorems": [
    "C43_settings_partial",
    "C43_ignored_refuted",
    "C43_negation_refuted"
   ],
   "note": "All parameters, the case mapping, channel modes, types, status prefixes, memberships and rate after any sequence of announcements that only set values; the statement fails for negated tokens, which are ignored (proved for every such token, with a concrete server as witness)."
  },
  {
   "property": "C75",
   "status": "partial",
   "theorems": [
    "C75_raw",
    "C75_same_partial",
    "C75_waiting_partial",
    "C75_escape_refuted",
    "C43_negation_refuted"
   ],
   "note": "Whatever the moment the client connects it reads the last value as sent; equal to the direct view without escape sequences and negations. Both exceptions are refuted: escape sequences are escaped a second time, negated tokens are dropped. After a reconnection, parameters the new connection no longer announces stay known to clients (not modelled)."
  },
  {
   "property": "C44",
   "status": "proved",
   "theorems": [
    "C44_mirror"
   ],
   "note": "against a ground-truth server (connections, joins, parts, kicks, quits, nicknames, modes, listings): no message refused, own nickname, channels, members and statuses agree after every run; the tables announced by the server are fixed during the run; statuses exactly only with multi-prefix"
  },
  {
   "property": "C76",
   "status": "partial",
   "theorems": [
    "C76_who_partial",
    "C76_unlisted_refuted",
    "C76_own_away_refuted",
    "C76_host_refuted",
    "C76_monitor_refuted"
   ],
   "note": "Proved by induction over all server runs for plain servers (no CHGHOST, no MONITOR, members listed before we leave), excepting our own account and away state. Refuted: a channel whose members have not been listed is answered with a partial list; our own away state is never updated in the cache; CHGHOST does not update the cached host; a monitored user that went offline is still answered."
  },
  {
   "property": "C45",
   "status": "proved",
   "theorems": [
    "C45_fallback",
    "C45_bounded"
   ],
   "note": "The whole conversation with a server that refuses any set of nicknames, and the bound on what is asked for against any server."
  },
  {
   "property": "C77",
   "status": "partial",
   "theorems": [
    "C77_no_crash",
    "C77_starts",
    "C77_retries_partial",
    "C77_goes_on",
    "C77_quiet_partial",
    "C77_stuck_refuted",
    "C77_monitor_refuted"
   ],
   "note": "Holds for servers without MONITOR that answer attempts by accepting them or by 433. An attempt refused by another numeric blocks all later ones (refuted), and with MONITOR the refusal of an attempt is shown to clients (refuted)."
  },
  {
   "property": "C46",
   "status": "proved",
   "theorems": [
    "C46_away",
    "C46_asked",
    "C46_sparing",
    "C46_empty_refuted"
   ],
   "note": "For every sequence of events of a user, with any number of networks and clients. Being away is what the client was last told; a client that sends AWAY with an empty text is told that it is away, unlike on servers (refuted beside)."
  },
  {
   "property": "C49",
   "status": "partial",
   "theorems": [
    "C49_limit",
    "C49_fs_limit",
    "C49_db_limit",
    "C49_meaning",
    "C49_db",
    "C49_targets",
    "C49_malformed_partial",
    "C49_search_limit",
    "C49_fs_search_limit",
    "C49_db_search_limit",
    "C49_empty_bound_refuted",
    "C49_service_refuted",
    "C49_unbound_refuted"
   ],
   "note": "The limit holds for every request, with both stores. Malformed requests get an error except: an empty second bound counts as none, requests about the service are answered with an empty batch, and so is TARGETS without a network (all refuted with witnesses)."
  },
  {
   "property": "C50",
   "status": "partial",
   "theorems": [
    "C50_covered_partial",
    "C50_no_excess",
    "C50_sync_partial",
    "C50_want_refuted",
    "C50_race_refuted"
   ],
   "note": "The server's list covers the clients' lists in all runs where no notification crosses a command ending it, and has no excess beyond what is being notified, in all runs. In general false: the wanted nickname is monitored only every other time, and a crossing notification leaves a client without notifications."
  },
  {
   "property": "C78",
   "status": "proved",
   "theorems": [
    "C78_relay",
    "C78_full",
    "C78_told",
    "C78_list"
   ],
   "note": ""
  },
  {
   "property": "C48",
   "status": "partial",
   "theorems": [
    "C48_from_server",
    "C48_no_text_partial",
    "C48_to_server",
    "C48_split",
    "C48_reached_partial",
    "C48_not_asked_partial",
    "C48_not_taken_partial",
    "C48_username_refuted",
    "C48_command_refuted",
    "C48_rename_refuted",
    "C48_invite_refuted"
   ],
   "note": "Holds for texts in both directions, for all spellings and case mappings, and for NICK of clients. In general false: users may be named like the service, the service accepts the nickname, NICK of other users to it is forwarded, and INVITE of it is sent to the server."
  },
  {
   "property": "C79",
   "status": "partial",
   "theorems": [
    "C79_networks",
    "C79_name_state_partial",
    "C79_attributes_partial",
    "C79_quiet",
    "C79_username_refuted",
    "C79_error_refuted",
    "C79_nickname_refuted",
    "C79_late_state_refuted",
    "C79_late_error_refuted",
    "C79_late_cap_refuted"
   ],
   "note": "The set of networks is proved for all runs; names and states unless an object that was replaced speaks late; other attributes as long as no event changes them silently. The silent changes (removed attributes, error cleared by an update, NICK), the late announcements and the capability requested after registration are refuted with witnesses."
  },
  {
   "property": "C80",
   "status": "partial",
   "theorems": [
    "C80_registers",
    "C80_secret",
    "C80_listing_partial",
    "C80_listing_refuted",
    "C80_registers_refuted",
    "C80_unknown_command_refuted"
   ],
   "note": "Registration against a server that follows the specifications, and the password against any server. Refuted: a list of capabilities in several lines addressed to the nickname instead of * (upstream.go:720 looks at the wrong parameter); a server with labeled-response but without echo-message; a server that does not know AUTHENTICATE."
  },
  {
   "property": "C81",
   "status": "partial",
   "theorems": [
    "C81_recipients",
    "C81_worth",
    "C81_each_once",
    "C81_reached_partial",
    "C81_accepted_partial",
    "C81_tested",
    "C81_dismissed_partial",
    "C81_unbound",
    "C81_reached_refuted",
    "C81_accepted_refuted",
    "C81_case_refuted",
    "C81_unregistered_refuted",
    "C81_dismissed_refuted",
    "C81_unbound_refuted"
   ],
   "note": "Recipients, reasons, at-most-once and the test request are proved for all runs; that working endpoints are reached for databases that never reuse row numbers (PostgreSQL). Refuted: with SQLite a late answer deletes the row of another user; with 26 subscriptions none can be renewed; marks after a change of the network or texts out of order are not notified; a delivery under way outlives UNREGISTER; clients bound to no network get nothing."
  },
  {
   "property": "C82",
   "status": "partial",
   "theorems": [
    "C82_topic_partial",
    "C82_modes_partial",
    "C82_topic_answer_partial",
    "C82_modes_answer_partial",
    "C82_topic_refuted",
    "C82_topic_answer_refuted",
    "C82_lost_answer_refuted"
   ],
   "note": "Proved for all runs in which only saved channels are detached. Missing: runs in which an unsaved channel is detached (refuted: clients are not told and keep a stale topic). An answer given before the server has told the topic may say there is none (refuted); the theorem on answers is for channels the server has finished telling about. Presence in channels is C70."
  },
  {
   "property": "C83",
   "status": "partial",
   "theorems": [
    "C83_stored",
    "C83_uploaded_partial",
    "C83_headers",
    "C83_foreign",
    "C83_shown",
    "C83_refused_partial",
    "C83_refused_refuted",
    "C83_colon_refuted",
    "C83_noname_refuted"
   ],
   "note": "All requests, interleavings of bodies, failures and restarts. Refuted: an upload that fails in the middle leaves a partial file that is served; the link of a user whose name has a colon; the name of a file whose disposition has none. MIME parsing and tables are oracles."
  },
  {
   "property": "C84",
   "status": "partial",
   "theorems": [
    "C84_seen",
    "C84_kept",
    "C84_determined",
    "C84_sent",
    "C84_transport",
    "C84_seen_local_partial",
    "C84_kept_local_partial",
    "C84_status_refuted",
    "C84_context_refuted",
    "C84_unlabeled_refuted",
    "C84_lost_refuted",
    "C84_twice_refuted",
    "C84_label_refuted"
   ],
   "note": "Proved for all runs without capability changes: with echo-message and labeled-response in full, without them for texts with no status prefix and no channel context. Refuted with witnesses for those, and for four situations in which the server changes its capabilities or offers only one of the two."
  },
  {
   "property": "C85",
   "status": "partial",
   "theorems": [
    "C85_known",
    "C85_account",
    "C85_nick_connected",
    "C85_nick_offline",
    "C85_nick_unbound",
    "C85_setname_connected",
    "C85_setname_unbound",
    "C85_offline_others_refuted",
    "C85_welcome_refuted",
    "C85_service_refuted",
    "C85_setname_stale_refuted",
    "C85_user_late_refuted",
    "C85_empty_user_refuted",
    "C85_setname_forgotten_refuted"
   ],
   "note": "Clients of a connected network know what the server said, for all runs; requests reach the server or the clients concerned. Refuted: other clients while disconnected, welcome without network, changes by the service, stale and forgotten realnames, late chghost, empty user name."
  },
  {
   "property": "C86",
   "status": "partial",
   "theorems": [
    "C86_dial",
    "C86_default_port",
    "C86_certificate",
    "C86_socket",
    "C86_tls",
    "C86_name",
    "C86_change",
    "C86_change_other",
    "C86_add",
    "C86_nick_partial",
    "C86_pin_partial",
    "C86_pin_refuted",
    "C86_six_refuted",
    "C86_tls_attribute_refuted",
    "C86_nick_refuted"
   ],
   "note": "Proved for all addresses and reachable users except where refuted: fingerprints are met by any certificate presented, IPv6 addresses lose their brackets when attributes change, hosts containing a scheme override tls, a nickname equal to the user name becomes the user's default nickname."
  },
  {
   "property": "C87",
   "status": "proved",
   "theorems": [
    "C87_window",
    "C87_window_prompt",
    "C87_tight",
    "C87_wait",
    "C87_needed",
    "C87_clients",
    "C87_each_once"
   ],
   "note": "Exact arithmetic instead of the floating point of x/time/rate; closing while waiting is not modelled. C87_tight shows that the extra message is reachable."
  },
  {
   "property": "C88",
   "status": "partial",
   "theorems": [
    "C88_selected_partial",
    "C88_disabled",
    "C88_refused",
    "C88_welcomed",
    "C88_reenabled",
    "C88_race_refuted",
    "C88_restart_refuted",
    "C88_enable_refuted"
   ],
   "note": "Proved while the bouncer runs, the database works and hashes are of the current cost. Refuted: a client that connects while the sweep is under way, sessions that end with a restart, accounts enabled again by an admin."
  },
  {
   "property": "C89",
   "status": "partial",
   "theorems": [
    "C89_last_set_partial",
    "C89_login",
    "C89_closed",
    "C89_upgrade_race_refuted",
    "C89_sojudb_refuted",
    "C89_late_refuted",
    "C89_own_refuted",
    "C89_upgrade_refuted"
   ],
   "note": "Proved when no login is interrupted by other events and sojudb is not used, for a hash that accepts one password only. Refuted: logins that upgrade a hash during a change, sojudb while the bouncer runs, connections that arrive after the change, the user's own change, upgrades of weak hashes."
  },
  {
   "property": "C90",
   "status": "partial",
   "theorems": [
    "C90_quiet_partial",
    "C90_who_detaches",
    "C90_detached_partial",
    "C90_reattached",
    "C90_who_attaches",
    "C90_race_refuted",
    "C90_kick_refuted",
    "C90_join_refuted",
    "C90_sigil_refuted",
    "C90_create_refuted",
    "C90_delete_refuted"
   ],
   "note": "Not before: proved when events of timers do not cross activity, without kicks, repeated JOINs and messages to operators only; each of these is refuted. Then: proved unless a joined channel is created with the service or the database fails to delete it; both refuted. What attaches and detaches: proved in all executions."
  },
  {
   "property": "C91",
   "status": "partial",
   "theorems": [
    "C91_untrusted_http",
    "C91_untrusted_proxy",
    "C91_unix_proxy",
    "C91_trusted_proxy",
    "C91_trusted_forwarded",
    "C91_trusted_x_forwarded_for",
    "C91_accepted",
    "C91_ranges",
    "C91_one_address",
    "C91_host_port",
    "C91_host_alone",
    "C91_proxy_chain_refuted",
    "C91_forwarded_list_refuted"
   ],
   "note": "Proved for headers with one element; refuted for chains of proxies: the host gets a space (X-Forwarded-For) or is that of the proxy (Forwarded). net.ParseIP, net.ParseCIDR, mime.ParseMediaType are modelled from the standard library; RFC 2231 parameters are an oracle; go-proxyproto's listener is assumed to take the header's address with policy USE only."
  },
  {
   "property": "C92",
   "status": "partial",
   "theorems": [
    "C92_plain_text",
    "C92_tls",
    "C92_certificate",
    "C92_admin",
    "C92_debug",
    "C92_tcp",
    "C92_bare",
    "C92_localhost",
    "C92_debug_uris",
    "C92_paths",
    "C92_admin_default",
    "C92_all",
    "C92_both",
    "C92_default",
    "C92_relative_path_refuted",
    "C92_empty_port_refuted"
   ],
   "note": "All documented forms and all safety statements proved; refuted for relative paths of Unix sockets and for an empty port. Failures of system calls are not modelled."
  },
  {
   "property": "C93",
   "status": "partial",
   "theorems": [
    "C93_accepted",
    "C93_no_panic",
    "C93_only_matching",
    "C93_every_matching",
    "C93_one_meaning",
    "C93_with_slashes",
    "C93_characters",
    "C93_characters_only",
    "C93_slashes_refuted",
    "C93_negation_refuted"
   ],
   "note": "path.Match modelled byte by byte; sound for all hosts, complete for hosts without slash that are ASCII (or patterns without ? and brackets). Refuted: glob(7) negation [!a] is not negation; names with slashes. The WebSocket library's own use of the patterns is external."
  },
  {
   "property": "C94",
   "status": "proved",
   "theorems": [
    "C94_accepted",
    "C94_values",
    "C94_auth",
    "C94_somebody",
    "C94_listeners"
   ],
   "note": "go-scfg's syntax and strconv.ParseFloat are inputs."
  },
  {
   "property": "C95",
   "status": "partial",
   "theorems": [
    "C95_reloaded",
    "C95_failed",
    "C95_in_force",
    "C95_in_force_one",
    "C95_certificate",
    "C95_fixed",
    "C95_store",
    "C95_backlog",
    "C95_store_refuted",
    "C95_backlog_refuted"
   ],
   "note": "Refuted for the message store: users started after a reload get the new one, and clients of running users are offered what their store cannot do. Everything else proved for all runs."
  },
  {
   "property": "C96",
   "status": "partial",
   "theorems": [
    "C96_http",
    "C96_token",
    "C96_not_client",
    "C96_discovery",
    "C96_well_known",
    "C96_verified",
    "C96_registered",
    "C96_colon_refuted",
    "C96_mail_refuted"
   ],
   "note": "Proved for user names without a colon (HTTP) and without @ and / (OAuth tokens used as passwords); refuted for the others. Servers are oracles constrained by http_honest/oauth_honest; TLS, HTTP and JSON are not modelled."
  },
  {
   "property": "C97",
   "status": "partial",
   "theorems": [
    "C97_served",
    "C97_created",
    "C97_unchanged",
    "C97_internal_partial",
    "C97_lets_in",
    "C97_lets_in_new_partial",
    "C97_deleted_refuted",
    "C97_twice_refuted"
   ],
   "note": "Proved for all runs; no account from internal passwords needs that no account is deleted, and being let in that nobody else creates the account at the same time: both refuted otherwise with witnesses."
  },
  {
   "property": "C98",
   "status": "partial",
   "theorems": [
    "C98_atomic",
    "C98_schema_sqlite_partial",
    "C98_schema_postgres",
    "C98_kept_sqlite",
    "C98_kept_sqlite_old",
    "C98_kept_postgres",
    "C98_succeeds_sqlite",
    "C98_succeeds_postgres",
    "C98_fails_sqlite",
    "C98_stuck_refuted",
    "C98_subscription_refuted"
   ],
   "note": "Refuted in two points: SQLite databases older than version 14 with channels cannot be upgraded (C98_fails_sqlite: none can), and push subscriptions without network lose their user when upgrading from versions up to 16. Everything else is proved for all versions and rows; the SQLite schema comparison leaves out the default of User.created_at and NOT NULL of WebPushSubscription.user, which do differ."
  },
  {
   "property": "C99",
   "status": "partial",
   "theorems": [
    "C99_process",
    "C99_user",
    "C99_unnamed",
    "C99_process_refuted",
    "C99_nameless_refuted",
    "C99_half_joined_refuted",
    "C99_login_refuted",
    "C99_whox_refuted"
   ],
   "note": "Every index, dereference and explicit panic of handleMessage is modelled. Refuted: a line whose source has no name (': ACCOUNT x') panics in cacheUserInfo; before registration no goroutine recovers it and the whole process ends for every user. An empty nickname in 001 makes the next text in a saved channel panic. Proved: with named sources the process never ends; with nicknames too, only the three coincidences with witnesses stop the user."
  },
  {
   "property": "C100",
   "status": "partial",
   "theorems": [
    "C100_user",
    "C100_bound",
    "C100_delete_refuted",
    "C100_attach_refuted",
    "C100_login_refuted",
    "C100_who_refuted",
    "C100_disabled_refuted"
   ],
   "note": "The unconditional claim (the session never stops) is refuted by five witnesses; C100_user shows these five coincidences are the only ones."
  },
  {
   "property": "C101",
   "status": "partial",
   "theorems": [
    "C101_steps",
    "C101_rest",
    "C101_each_other_refuted",
    "C101_ended_refuted",
    "C101_unheard_refuted",
    "C101_everybody_refuted",
    "C101_oneself_refuted"
   ],
   "note": "Proved for calm runs as stated; the five ways to hang named in the statement are proved as refutations of the unrestricted claim."
  },
  {
   "property": "C102",
   "status": "partial",
   "theorems": [
    "C102_request",
    "C102_malformed",
    "C102_log_before_partial",
    "C102_log_after_partial",
    "C102_quoted",
    "C102_words",
    "C102_db",
    "C102_from_refuted",
    "C102_bounds_refuted",
    "C102_case_refuted",
    "C102_gap_refuted"
   ],
   "note": "Requests, refusals, quoting and the rows of the database are proved for all inputs; log files for logs without 100 days in a row without a match (and, with an earliest time, without messages at midnight). Refuted: the database gives the last messages when asked for those from a time on; messages exactly at a bound are left out; nicknames are compared byte by byte; the log search stops after 100 days without a match. SQLite's MATCH on a sequence of strings is an assumption (is_match5)."
  },
  {
   "property": "C103",
   "status": "partial",
   "theorems": [
    "C103_labelled",
    "C103_one",
    "C103_unlabelled_partial",
    "C103_all_sent",
    "C103_twice_refuted",
    "C103_try_again_refuted",
    "C103_other_refuted",
    "C103_gone_refuted",
    "C103_all_refuted"
   ],
   "note": "with labels, for every server that answers each query with one final line; without labels for the lines of LIST, WHO and WHOIS answers. Refuted for servers that send 401 and 318 (or 263 and 315), for errors about messages to a nickname with a WHOIS outstanding, and without labels for other lines and for errors after the client has left"
  },
  {
   "property": "C104",
   "status": "partial",
   "theorems": [
    "C104_read_back_partial",
    "C104_ids_partial",
    "C104_open",
    "C104_open_file_refuted",
    "C104_left_over_refuted",
    "C104_deleted_refuted"
   ],
   "note": "for all runs in which no network gets a directory that another network had; the bound on open files for all runs. Refuted otherwise: messages are written to the log of a renamed network, and logs of deleted networks are shown"
  },
  {
   "property": "C105",
   "status": "partial",
   "theorems": [
    "C105_checked",
    "C105_outside_partial",
    "C105_usable_partial",
    "C105_literal_refuted",
    "C105_changed_refuted",
    "C105_redirect_refuted",
    "C105_near_refuted",
    "C105_usable_refuted"
   ],
   "note": "Proved: every request goes to an endpoint that was checked when registered, first connection with TLS; with stable DNS, no redirections and endpoints without colons in the authority, all connections go with TLS to port 443 of machines elsewhere; usable endpoints with a host name and no port are accepted. Refuted for bare IPv6 authorities (https://::1:443/), names whose address changes, redirections, link-local addresses and 0.0.0.0; endpoints with ports or IPv6 addresses are refused although they work."
  },
  {
   "property": "C106",
   "status": "partial",
   "theorems": [
    "C106_update",
    "C106_create_partial",
    "C106_delete",
    "C106_failed_partial",
    "C106_stored_partial",
    "C106_status",
    "C106_status_bound_partial",
    "C106_listed_partial",
    "C106_detached_refuted",
    "C106_failed_refuted",
    "C106_database_refuted",
    "C106_after_refuted",
    "C106_bound_refuted",
    "C106_slash_refuted"
   ],
   "note": "update, delete and the listing proved for all commands and states; create without -detached (ignored, refuted); failing commands change nothing unless the database fails or an update has several options (refuted); durations are stored in whole seconds (refuted); names with a slash and networks found by address refuted"
  },
  {
   "property": "C108",
   "status": "partial",
   "theorems": [
    "C108_parse",
    "C108_import_partial",
    "C108_server",
    "C108_footer_refuted",
    "C108_twice_refuted",
    "C108_last_line_refuted",
    "C108_six_refuted",
    "C108_again_refuted"
   ],
   "note": "Proved for files without two sections for the same user, network or channel. Refuted: stray footers end the file silently, a failure half-way keeps what was written, a last setting without line break is refused, IPv6 servers without brackets become another address, importing twice may fail."
  },
  {
   "property": "C110",
   "status": "partial",
   "theorems": [
    "C110_one_key_partial",
    "C110_start_partial",
    "C110_two_refuted"
   ],
   "note": "One key and a working start for all runs with one process at a time, with crashes anywhere; refuted when two processes are started at once on an empty database: no server starts any more."
  },
  {
   "property": "C111",
   "status": "partial",
   "theorems": [
    "C111_copied_partial",
    "C111_text_partial",
    "C111_ends",
    "C111_name_refuted",
    "C111_again_refuted"
   ],
   "note": "Exactly the messages that can be read in the files are added, in order, once, with their times, for one complete run and under the names of the folders; the run is complete if all files can be read; refuted for targets whose name is changed for the file system, and for a run after one that was broken off."
  },
  {
   "property": "C112",
   "status": "partial",
   "theorems": [
    "C112_stops_partial",
    "C112_handled_partial",
    "C112_closed_last",
    "C112_lookup_refuted",
    "C112_panic_refuted",
    "C112_create_refuted"
   ],
   "note": "Proved without commands that need the server's lock and without panics; what users were given before is dealt with, also with such commands. Refuted with them: the server may never stop. That the database is closed last holds in every execution."
  },
  {
   "property": "C42",
   "status": "partial",
   "theorems": [
    "C42_address_in_range",
    "C42_addresses_distinct",
    "C42_error_iff_exhausted_partial",
    "C42_dial_own",
    "C42_dial_distinct",
    "C42_leading_zero_range_refuted",
    "C42_dual_stack_refuted"
   ],
   "note": "Containment and distinctness proved for all ranges, also for what is dialled; the error clause holds when the first byte of the range is not zero and is refuted otherwise. With a range of each family every connection leaves from the user's address; refuted with one of IPv4 only."
  },
  {
   "property": "C113",
   "status": "partial",
   "theorems": [
    "C113_tcp",
    "C113_tcp_lenient_partial",
    "C113_websocket_partial",
    "C113_frame_refuted",
    "C113_command_refuted",
    "C113_log_refuted",
    "C113_cr_refuted"
   ],
   "note": "Proved for all bytes of TCP clients (line end LF). Refuted for WebSocket frames with line ends inside, also for what is logged, and for CR inside messages with servers that take CR as a line end."
  },
  {
   "property": "C114",
   "status": "proved",
   "theorems": [
    "C114_valid",
    "C114_unchanged",
    "C114_mended",
    "C114_ascii"
   ],
   "note": ""
  },
  {
   "property": "C115",
   "status": "partial",
   "theorems": [
    "C115_served",
    "C115_ended",
    "C115_stops_partial",
    "C115_late_refuted",
    "C115_after_refuted"
   ],
   "note": "Accepting is proved in full. Stopping is proved for listeners that are known when the server is stopped; refuted for those that are about to be."
  },
  {
   "property": "C107",
   "status": "partial",
   "theorems": [
    "C107_user_partial",
    "C107_network_partial",
    "C107_channel_partial",
    "C107_delivery_partial",
    "C107_read_partial",
    "C107_subscription",
    "C107_messages",
    "C107_works_partial",
    "C107_create_user",
    "C107_create_network",
    "C107_create_channel",
    "C107_listed",
    "C107_last",
    "C107_targets",
    "C107_delete_user",
    "C107_delete_network",
    "C107_delete_channel",
    "C107_delete_subscription",
    "C107_encoding_refuted",
    "C107_length_refuted",
    "C107_blank_refuted",
    "C107_seconds_refuted"
   ],
   "note": "Texts that are not UTF-8 or do not fit into their columns are refused (or lose trailing blanks), proved as refutations; for all others the statement is proved, also that creating users, networks and channels works unless a name is taken."
  },
  {
   "property": "C117",
   "status": "partial",
   "theorems": [
    "C117_named_partial",
    "C117_current",
    "C117_one_network",
    "C117_mixed_refuted",
    "C117_dash_refuted"
   ],
   "note": "Proved for users none of whose networks is called like the address of another, and for the network the client is bound to. Refuted otherwise: a network listed by its address can be mistaken for an earlier one with the same address; a name that begins with a dash is ignored."
  },
  {
   "property": "C109",
   "status": "partial",
   "theorems": [
    "C109_copy_partial",
    "C109_users",
    "C109_works",
    "C109_sqlite_works",
    "C109_owner_refuted",
    "C109_lost_refuted",
    "C109_too_long_refuted"
   ],
   "note": "Proved if the users of the source have the IDs 1, 2, ... in the order they are listed. C109_works, C109_sqlite_works: if what the source lists is within the limits of PostgreSQL's tables (lengths, 32-bit numbers, UTF-8; uniqueness follows from SQLite's schema), the copy runs to its end. Refuted in general: the networks are listed with the new ID of the user, so that networks and their passwords go to other users once a user was deleted; read markers and subscriptions without a network are not copied; a text that is too long ends the copy in the middle."
  },
  {
   "property": "C116",
   "status": "partial",
   "theorems": [
    "C116_told_partial",
    "C116_only_live",
    "C116_distinct",
    "C116_form",
    "C116_hashed",
    "C116_shared_port_refuted",
    "C116_forgotten_refuted"
   ],
   "note": "Proved for all runs in which no two connections share host, port and own port; refuted otherwise, which needs addresses per user. That only users with such a connection are named holds in all runs. SHA-256 is an oracle."
  },
  {
   "property": "C118",
   "status": "proved",
   "theorems": [
    "C118_listed",
    "C118_long_gone",
    "C118_postgres_listed",
    "C118_postgres_long_gone"
   ],
   "note": "Both databases. SQLite: times in years 0 to 9999 and a limit other than the zero time, as of a clock. PostgreSQL rounds times to microseconds: exact for whole microseconds, otherwise but for one."
  }
 ]
}