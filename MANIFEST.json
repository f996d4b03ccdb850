{
 "claims": [
  {
   "property": "C01",
   "status": "proved",
   "theorems": [
    "C01_match_exact",
    "C01_match_case_insensitive_exact",
    "C01_match_sound",
    "C01_match_case_insensitive_sound",
    "C01_double_star_end_refuted",
    "C01_backslash_refuted",
    "C01_list_exact",
    "C01_list_sound"
   ],
   "note": "Exact for patterns without backslash and not ending in '**' (the exceptions named in the property; witnesses of both defects are proved as _refuted). Soundness holds without side conditions."
  },
  {
   "property": "C02",
   "status": "proved",
   "theorems": [
    "C02_strlcpy",
    "C02_strlcat",
    "C02_strlcpy_refines",
    "C02_strlcat_refines"
   ],
   "note": "Memory-level model with out-of-bounds writes as distinct outcome; refinement to the string-level functions used elsewhere."
  },
  {
   "property": "C03",
   "status": "proved",
   "theorems": [
    "C03_no_duplicates_ever",
    "C03_add",
    "C03_add_others_unchanged",
    "C03_delete",
    "C03_check",
    "C03_check_keeps_list",
    "C03_check_reason"
   ],
   "note": "All operation sequences; masks of at most 127 bytes (what Lists_MakeMask and Client_Mask produce)."
  },
  {
   "property": "C04",
   "status": "partial",
   "theorems": [
    "C04_mask_shape_partial",
    "C04_mask_length",
    "C04_full_mask_unchanged",
    "C04_nick_mask",
    "C04_nick_user_mask",
    "C04_user_host_mask",
    "C04_long_mask_refuted"
   ],
   "note": "Holds for patterns up to 122 bytes and the length bound always; for longer ones truncation can remove '!' or '@' (C04_long_mask_refuted)."
  },
  {
   "property": "C05",
   "status": "proved",
   "theorems": [
    "C05_equal_names_equal_hash"
   ],
   "note": "Equal names ignoring case have equal hashes."
  },
  {
   "property": "C06",
   "status": "proved",
   "theorems": [
    "C06_at_most_15_parameters",
    "C06_roundtrip",
    "C06_middle_parameters"
   ],
   "note": ""
  },
  {
   "property": "C07",
   "status": "partial",
   "theorems": [
    "C07_lines_of_the_stream_partial",
    "C07_segmentation_partial",
    "C07_first_line_is_executed",
    "C07_data_is_executed"
   ],
   "note": "Over any sequence of events that keeps a connection connected, the lines executed for it (trace of Parse_Request calls) followed by the lines still in its read buffer equal the lines of the received stream; the first line that may be executed is executed by every pass. Missing: that Parse_Request never reports a connection as closed that is still there (flag ok), and streams with NUL bytes (which stall)."
  },
  {
   "property": "C08",
   "status": "proved",
   "theorems": [
    "C08_legal_lines"
   ],
   "note": "For every configuration whose strings contain no CR/LF, every history of events with arbitrary received data (address texts and resolver results without CR/LF) writes only legal lines; proved with a unary logical relation over every function of the model (Clean*.v). Configuration strings come from a line based file; the C code strips CR/LF at the ends of lines."
  },
  {
   "property": "C09",
   "status": "proved",
   "theorems": [
    "C09_nicknames_are_legal",
    "C09_nicknames_before_registration",
    "C09_check_is_exact",
    "C09_semicolon_refuted"
   ],
   "note": "Exact for the alphabet ngIRCd really uses (it also accepts ';', C09_semicolon_refuted shows that the RFC alphabet is not enforced); hypothesis undisturbed: no peer has turned its own server link into a client (history variable, DESIGN.md)."
  },
  {
   "property": "C10",
   "status": "proved",
   "theorems": [
    "C10_join",
    "C10_channel_names_are_legal_partial",
    "C10_chaninfo_refuted"
   ],
   "note": "C10_join: after a line of a registered local user every channel existed before or is named by this JOIN, with a non-empty legal name that starts with a configured prefix. C10_channel_names_are_legal_partial is the invariant over all histories for the channels of remote users' JOINs and of the configuration too (legal or empty); channels created by a peer's CHANINFO are exempt (C10_chaninfo_refuted)."
  },
  {
   "property": "C11",
   "status": "partial",
   "theorems": [
    "C11_nicknames_are_unique",
    "C11_names_are_unique",
    "C11_exclamation_mark_refuted"
   ],
   "note": "Full for local users against everybody; for remote clients names of less than 63 bytes without '!' (C11_exclamation_mark_refuted shows why); services exempt."
  },
  {
   "property": "C12",
   "status": "partial",
   "theorems": [
    "C12_channel_names_are_unique",
    "C12_long_chaninfo_refuted"
   ],
   "note": "Channels created by CHANINFO with an illegal name are exempt (C12_long_chaninfo_refuted)."
  },
  {
   "property": "C13",
   "status": "partial",
   "theorems": [
    "C13_members_exist",
    "C13_channel_of_member_exists",
    "C13_at_most_once",
    "C13_server_member_refuted"
   ],
   "note": "Memberships a peer creates for servers or unregistered clients are exempt (C13_server_member_refuted); see also C26."
  },
  {
   "property": "C14",
   "status": "partial",
   "theorems": [
    "C14_channels_have_members",
    "C14_chaninfo_refuted"
   ],
   "note": "Channels created empty by CHANINFO or which lost +P while empty are exempt (C14_chaninfo_refuted); the removal of the channel with all its data is C26 rm_chans."
  },
  {
   "property": "C15",
   "status": "proved",
   "theorems": [
    "C15_line",
    "C15_event"
   ],
   "note": "C15_line: a line of a registered local user puts nobody but himself on a channel, only by a JOIN naming it, and if the channel existed only if the rules (admitted: bans/exceptions/invites, +i, +k with the key at the same position, +l, +z, +O, +R, or being an IRC operator) let him in. C15_event: for every event, whoever gets on a channel does so by such a line, by a line of a linked server (which decides for its own users), or when he completes his login (the channels the administrator configured)."
  },
  {
   "property": "C16",
   "status": "proved",
   "theorems": [
    "C16_not_relayed"
   ],
   "note": "A PRIVMSG or NOTICE of a local user to one channel: if the rules of channel modes, privileges and lists do not allow him to speak, exactly one line (the error reply, none for NOTICE) is written and only to him. Hypotheses: the target names only this channel (only_channel, the_channel; see C17_intercepted_refuted), his cloaked host name has been computed (settled)."
  },
  {
   "property": "C17",
   "status": "proved",
   "theorems": [
    "C17_relayed",
    "C17_intercepted_refuted"
   ],
   "note": "Exact output of an accepted message of a local user: per connection, exactly one line iff the connection leads to another member. Refuted without the hypothesis only_channel: a peer may introduce a user whose user name is the name of the channel and gets all messages instead of the channel."
  },
  {
   "property": "C18",
   "status": "proved",
   "theorems": [
    "C18_line",
    "C18_privileges_line",
    "C18_event",
    "C18_privileges_event"
   ],
   "note": "Line and event theorems for registered local users: modes, key, limit, bans, exceptions and member privileges change only by a MODE command of an entitled user, entitlement being evaluated before the command. Changes by linked servers are outside the claim. The invite list is covered under C32."
  },
  {
   "property": "C19",
   "status": "proved",
   "theorems": [
    "C19_line",
    "C19_event"
   ],
   "note": "C19_line: a line of a registered user makes another, still existing client leave a channel only by a KICK naming both, and only if may_kick (order owner > admin > operator > half-op with equal rank allowed; +Q, user mode +q and services protected except from IRC operators; IRC operators with OperCanUseMode). C19_event lifts it to every event (lines of servers excepted)."
  },
  {
   "property": "C20",
   "status": "proved",
   "theorems": [
    "C20_operators_log_in",
    "C20_line",
    "C20_default_modes_refuted"
   ],
   "note": "Per event and per line: a client of the state before gains mode o only by its own OPER line with the name and password of a configured operator whose host mask matches, or by a line of a linked server. Undisturbed states only (no server link retyped by protocol abuse). If DefaultUserModes contains o everybody becomes an operator: C20_default_modes_refuted."
  },
  {
   "property": "C21",
   "status": "proved",
   "theorems": [
    "C21_operator_commands_refused",
    "C21_remote_bans_refused",
    "C21_remote_operators_refused"
   ],
   "note": "In every state, for every request: no change of any table, only lines written. Remote part: G-/K-lines from server links without AllowRemoteOper."
  },
  {
   "property": "C22",
   "status": "proved",
   "theorems": [
    "C22_lines_are_executed_in_live_states",
    "C22_only_permitted_commands",
    "C22_unknown_commands",
    "C22_before_registration",
    "C22_notice_refuted"
   ],
   "note": "The command table is restated in Spec.v (command_table); in every state. NOTICE is accepted before registration (refuted witness). C22_lines_are_executed_in_live_states: the reaction to received data is a sequence of actions between live states."
  },
  {
   "property": "C23",
   "status": "proved",
   "theorems": [
    "C23_user_prefix",
    "C23_server_prefix",
    "C23_no_prefix_before_registration"
   ],
   "note": "For every line in every live state of an undisturbed history (see Spec.v)."
  },
  {
   "property": "C24",
   "status": "proved",
   "theorems": [
    "C24_line",
    "C24_event"
   ],
   "note": "C24_line: one line of a non-server moves only its sender, by a registration step, and whoever becomes a user has answered the PING cookie, ended CAP, given the right password, has a legal nick and matches no G-/K-line. C24_event lifts it to every event of every reachable history."
  },
  {
   "property": "C25",
   "status": "partial",
   "theorems": [
    "C25_mode_strings_are_sets",
    "C25_remote_modes_refuted"
   ],
   "note": "Local users, memberships and channels; mode strings a peer sends with NICK or CHANINFO are stored unchecked (C25_remote_modes_refuted)."
  },
  {
   "property": "C26",
   "status": "proved",
   "theorems": [
    "C26_squit",
    "C26_lost_between_commands",
    "C26_lost_connection"
   ],
   "note": "Lost connections (events, and everything the server does between commands), and SQUIT by an operator of this server, by a linked server, or by a server or operator behind it. In networks in which no server removed or renamed this server itself (undisturbed). Lines other than SQUIT which make the server close a link (e.g. protocol errors of the peer) are not stated separately."
  },
  {
   "property": "C27",
   "status": "proved",
   "theorems": [
    "C27_tokens_are_unique",
    "C27_token_one_is_ours"
   ],
   "note": ""
  },
  {
   "property": "C28",
   "status": "partial",
   "theorems": [
    "C28_introduce_partial",
    "C28_server_partial",
    "C28_invite_partial",
    "C28_join_partial",
    "C28_kill_partial",
    "C28_kill_local_partial",
    "C28_kick_partial",
    "C28_part_partial",
    "C28_topic_partial",
    "C28_mode_partial",
    "C28_privilege_partial",
    "C28_list_partial",
    "C28_value_partial",
    "C28_unset_partial",
    "C28_nick_partial",
    "C28_quit_partial",
    "C28_umode_partial",
    "C28_away_partial"
   ],
   "note": "Proved for KICK (one user, one channel), PART and JOIN (one channel), TOPIC, MODE of channels (any set of modes without parameter; privileges of one member; one list entry; key; limit), MODE of users (any set of letters but a, B and x), AWAY, INVITE of remote users, KILL, NICK and QUIT, given by a local user or by a user behind a linked server: the exact lines every connection is sent; every linked server except the source exactly once, users sharing several channels with somebody exactly once; and for NICK with seven and SERVER with four parameters (a server introduces a user, service or server). Missing: the other forwarded commands (NJOIN, CHANINFO, ...), users introduced to peers with the protocol of RFC 1459, and commands combining several of these."
  },
  {
   "property": "C29",
   "status": "partial",
   "theorems": [
    "C29_invite_partial",
    "C29_join_partial",
    "C29_kick_partial",
    "C29_part_partial",
    "C29_topic_partial",
    "C29_message_partial",
    "C29_lists_refuted",
    "C29_njoin_refuted",
    "C29_mode_partial",
    "C29_privilege_partial",
    "C29_value_partial",
    "C29_unset_partial"
   ],
   "note": "JOIN, KICK, PART, TOPIC, MODE (modes without parameter, privileges, key, limit), INVITE and messages on local channels are not told to servers. Refuted for list modes (MODE &c +b/+e/+I is sent to all servers) and for NJOIN by a peer."
  },
  {
   "property": "C30",
   "status": "partial",
   "theorems": [
    "C30_list",
    "C30_whois",
    "C30_lusers",
    "C30_names",
    "C30_names_all_partial",
    "C30_who_partial",
    "C30_names_all_refuted",
    "C30_who_refuted"
   ],
   "note": "LIST (not for operators), WHOIS, LUSERS and NAMES with parameters are proved in full for local users: everything sent is as if the secret channel did not exist. NAMES without parameters and WHO are proved with a side condition; without it the claim is false (C30_names_all_refuted: a visible user who is on the secret channel only is missing in the final list; C30_who_refuted: WHO with the name of the channel shows that it exists). Not covered: queries of users of other servers, and other commands (TOPIC, MODE, PRIVMSG) which tell that a channel exists."
  },
  {
   "property": "C31",
   "status": "partial",
   "theorems": [
    "C31_invite_partial",
    "C31_join_partial",
    "C31_kill_partial",
    "C31_kill_local_partial",
    "C31_channel_partial",
    "C31_private_partial",
    "C31_kick_partial",
    "C31_part_partial",
    "C31_topic_partial",
    "C31_mode_partial",
    "C31_privilege_partial",
    "C31_list_partial",
    "C31_value_partial",
    "C31_nick_partial",
    "C31_quit_partial",
    "C31_umode_partial"
   ],
   "note": "Proved for channel and private messages, JOIN, KICK, PART, TOPIC, MODE (modes without parameter, privileges, lists, key, limit; modes of users), INVITE, KILL, NICK and QUIT: the exact line has the cloaked host in its prefix. Missing: commands combining several channels or modes."
  },
  {
   "property": "C32",
   "status": "proved",
   "theorems": [
    "C32_one_join",
    "C32_good_for_one_join",
    "C32_invite",
    "C32_permanent_stay",
    "C32_entries_stay",
    "C32_no_new_entries",
    "C32_no_chore"
   ],
   "note": "C32_one_join: a JOIN of one channel by a user (no operator) who is not on it and has room uses the invitations exactly once, whether he gets in or not. C32_invite: exact effect of INVITE (between users connected to this server). C32_permanent_stay / C32_entries_stay / C32_no_new_entries: per line, whoever sends it; for clients that are not registered yet the login commands are exempted (they could execute default modes and autojoin). C32_no_chore: timers and lost connections change nothing. Who gets in is C15."
  },
  {
   "property": "C33",
   "status": "proved",
   "theorems": [
    "C33_topic",
    "C33_line"
   ],
   "note": "Per event and per line. The permission also covers IRC operators as the code does (an IRC operator on the channel, or with OperCanUseMode anywhere). Longer topics than 512 bytes cannot arrive in a line of at most 511 bytes; the model of the store truncates as the code does."
  },
  {
   "property": "C34",
   "status": "partial",
   "theorems": [
    "C34_any_operation_sequence",
    "C34_append",
    "C34_copy",
    "C34_moveleft",
    "C34_truncate",
    "C34_get_inside_block",
    "C34_length",
    "C34_temporary_nul_partial",
    "C34_temporary_nul_refuted",
    "C34_failed_copy_refuted",
    "C34_get_beyond_used_refuted"
   ],
   "note": "Proved for all operation sequences except that cat0_temporary keeps the content only when there is spare room (always after an append); the unrestricted documented claims are refuted with witnesses."
  },
  {
   "property": "C35",
   "status": "proved",
   "theorems": [
    "C35_history",
    "C35_action",
    "C35_event",
    "C35_time",
    "C35_content_line",
    "C35_content_chore",
    "C35_content_event"
   ],
   "note": "Every live state: the ring holds the newest 64 entries of the history of departures and nickname changes (C35_history), each line, chore and event adds exactly the users and services that left or were renamed and were known for 30 seconds (C35_action, C35_event). Nobody else is recorded, except that a linked server which renames itself is recorded too (dp_who constrains the nickname for users only). The other fields of the entries (user, host, info, server) are proved for NICK of local users, for every line that cannot change these fields, for closed and for lost connections (C35_content_*)."
  },
  {
   "property": "C36",
   "status": "proved",
   "theorems": [
    "C36_not_read_while_blocked",
    "C36_buffer_kept_while_blocked",
    "C36_no_line_while_blocked",
    "C36_penalties_only_grow",
    "C36_amount"
   ],
   "note": "Blocked connections are not read and execute no line in any event; delaytime never decreases in any step; exact amount of Conn_SetPenalty with the clamp."
  },
  {
   "property": "C37",
   "status": "proved",
   "theorems": [
    "C37_lines_at_once",
    "C37_lines_per_read"
   ],
   "note": "At most 3 (10 for services and +F users) lines per pass / per read, each non-empty, without CR/LF, at most 511 bytes before its terminator; servers are not limited by the property."
  },
  {
   "property": "C38",
   "status": "proved",
   "theorems": [
    "C38_timeouts",
    "C38_others_stay",
    "C38_loop_checks"
   ],
   "note": "Exact outcome of the check of each connection in all six cases; the check of one connection leaves the others connected; the loop checks every connection."
  },
  {
   "property": "C39",
   "status": "proved",
   "theorems": [
    "C39_expire",
    "C39_expire_entries"
   ],
   "note": "List level (Lists_Expire), both server ban lists use it."
  },
  {
   "property": "C40",
   "status": "partial",
   "theorems": [
    "C40_mode_partial",
    "C40_other_commands_partial",
    "C40_refuted",
    "C40_channel_refuted",
    "C40_format_refuted"
   ],
   "note": "Proved for every state, sender and line: MODE does not read outside its parameters unless a parameter behind the mode string is empty (only the trailing one can be); no other command does, except ISON/USERHOST, which use the assembled reply as printf format. Refuted (real defects): `MODE nick +i :`, `MODE #chan +m :`, and USERHOST of a remote user whose name contains a percent sign."
  },
  {
   "property": "C41",
   "status": "proved",
   "theorems": [
    "C41_delivered",
    "C41_refused"
   ],
   "note": "Exact output per connection of a PRIVMSG/NOTICE of a local user to a nickname: delivered line, away reply or refusal."
  },
  {
   "property": "C42",
   "status": "partial",
   "theorems": [
    "C42_scrub_ctcp_partial",
    "C42_scrub_ctcp_bypass_refuted"
   ],
   "note": "Exact characterisation for lines of the usual shape; the unrestricted claim is refuted: CTCP without colon passes the filter."
  },
  {
   "property": "C43",
   "status": "proved",
   "theorems": [
    "C43_line",
    "C43_event",
    "C43_reply"
   ],
   "note": "C43_line: caps change only by the CAP command of the client itself, exactly as cap_effect says (REQ all-or-nothing). C43_event: a negotiation ends only by CAP END of this client; with C24 (rp_cap) no registration before. C43_reply: the exact ACK/NAK line and nothing else is written."
  },
  {
   "property": "C44",
   "status": "proved",
   "theorems": [
    "C44_line"
   ],
   "note": "C44_line: creator of a channel gets exactly o (nothing on + channels); joining an existing channel grants nothing, except o for an IRC operator on a +P channel with OperChanPAutoOp (a documented option)."
  },
  {
   "property": "C45",
   "status": "partial",
   "theorems": [
    "C45_registered",
    "C45_servers",
    "C45_server_order",
    "C45_other_links",
    "C45_users",
    "C45_members",
    "C45_settings",
    "C45_lists",
    "C45_not_cut",
    "C45_distance_refuted",
    "C45_cut_refuted"
   ],
   "note": "For every live state without O_Retype/O_Self: when the peer completes its login with the numeric 376 (all ngIRCd peers: flag H), every other known server (in the order of the hop count), every user and service (after the servers), the settings and members of every non-local channel (after the users), G-lines and channel lists are written to it, with their exact texts, and it is announced to all other links. Not covered: logins without the flag H (the same function called from SERVER). False of the code, and so excluded: servers announced with a negative hop count (C45_distance_refuted), members at the end of a line that exceeds 510 bytes with the prefix (C45_cut_refuted; C45_not_cut gives the bound), nicknames ending in a colon or of 32 and more bytes."
  },
  {
   "property": "C46",
   "status": "proved",
   "theorems": [
    "C46_stream",
    "C46_put",
    "C46_drained"
   ],
   "note": "Wbuf.v models Conn_Write, Handle_Write and the buffer handling of Conn_Close on top of Array.v, with arbitrary answers of write(2) and realloc(3). No out-of-bounds access, the peer gets a prefix of the queued stream in order, the limits hold. ZLIB and SSL are off."
  },
  {
   "property": "C47",
   "status": "proved",
   "theorems": [
    "C47_connection_limits",
    "C47_outgoing_refuted"
   ],
   "note": "For incoming connections; outgoing ones bypass the limit (C47_outgoing_refuted)."
  },
  {
   "property": "C48",
   "status": "proved",
   "theorems": [
    "C48_line",
    "C48_event",
    "C48_outgoing_refuted"
   ],
   "note": "Per line and per event. Outgoing connections (type UNKNOWNSERVER) are not covered by the positive theorems, and C48_outgoing_refuted shows why: a peer at the other end of an outgoing connection becomes a server by sending numeric 376, without password."
  }
 ]
}