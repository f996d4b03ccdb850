{
"C01": {
"status": "proved",
"note": "Exact for patterns without backslash and not ending in '**' (the exceptions named in the property; witnesses of both defects are proved as _refuted). Soundness holds without side conditions."
},
"C02": {
"status": "proved",
"note": "Memory-level model with out-of-bounds writes as distinct outcome; refinement to the string-level functions used elsewhere."
},
"C03": {
"status": "proved",
"note": "All operation sequences; masks of at most 127 bytes (what Lists_MakeMask and Client_Mask produce)."
},
"C04": {
"status": "partial",
"note": "Holds for patterns up to 122 bytes and the length bound always; for longer ones truncation can remove '!' or '@' (C04_long_mask_refuted)."
},
"C05": {
"status": "proved",
"note": "Equal names ignoring case have equal hashes."
},
"C06": {
"status": "proved",
"note": ""
},
"C07": {
"status": "partial",
"note": "Over any sequence of events that keeps a connection connected, the lines executed for it (trace of Parse_Request calls) followed by the lines still in its read buffer equal the lines of the received stream; the first line that may be executed is executed by every pass. Missing: that Parse_Request never reports a connection as closed that is still there (flag ok), and streams with NUL bytes (which stall)."
},
"C08": {
"status": "proved",
"note": "For every configuration whose strings contain no CR/LF, every history of events with arbitrary received data (address texts and resolver results without CR/LF) writes only legal lines; proved with a unary logical relation over every function of the model (Clean*.v). Configuration strings come from a line based file; the C code strips CR/LF at the ends of lines."
},
"C09": {
"status": "proved",
"note": "Exact for the alphabet ngIRCd really uses (it also accepts ';', C09_semicolon_refuted shows that the RFC alphabet is not enforced); hypothesis undisturbed: no peer has turned its own server link into a client (history variable, DESIGN.md)."
},
"C10": {
"status": "proved",
"note": "C10_join: after a line of a registered local user every channel existed before or is named by this JOIN, with a non-empty legal name that starts with a configured prefix. C10_channel_names_are_legal_partial is the invariant over all histories for the channels of remote users' JOINs and of the configuration too (legal or empty); channels created by a peer's CHANINFO are exempt (C10_chaninfo_refuted)."
},
"C11": {
"status": "partial",
"note": "Full for local users against everybody; for remote clients names of less than 63 bytes without '!' (C11_exclamation_mark_refuted shows why); services exempt."
},
"C12": {
"status": "partial",
"note": "Channels created by CHANINFO with an illegal name are exempt (C12_long_chaninfo_refuted)."
},
"C13": {
"status": "partial",
"note": "Memberships a peer creates for servers or unregistered clients are exempt (C13_server_member_refuted); see also C26."
},
"C14": {
"status": "partial",
"note": "Channels created empty by CHANINFO or which lost +P while empty are exempt (C14_chaninfo_refuted); the removal of the channel with all its data is C26 rm_chans."
},
"C15": {
"status": "proved",
"note": "C15_line: a line of a registered local user puts nobody but himself on a channel, only by a JOIN naming it, and if the channel existed only if the rules (admitted: bans/exceptions/invites, +i, +k with the key at the same position, +l, +z, +O, +R, or being an IRC operator) let him in. C15_event: for every event, whoever gets on a channel does so by such a line, by a line of a linked server (which decides for its own users), or when he completes his login (the channels the administrator configured)."
},
"C16": {
"status": "proved",
"note": "A PRIVMSG or NOTICE of a local user to one channel: if the rules of channel modes, privileges and lists do not allow him to speak, exactly one line (the error reply, none for NOTICE) is written and only to him. Hypotheses: the target names only this channel (only_channel, the_channel; see C17_intercepted_refuted), his cloaked host name has been computed (settled)."
},
"C17": {
"status": "proved",
"note": "Exact output of an accepted message of a local user: per connection, exactly one line iff the connection leads to another member. Refuted without the hypothesis only_channel: a peer may introduce a user whose user name is the name of the channel and gets all messages instead of the channel."
},
"C18": {
"status": "proved",
"note": "Line and event theorems for registered local users: modes, key, limit, bans, exceptions and member privileges change only by a MODE command of an entitled user, entitlement being evaluated before the command. Changes by linked servers are outside the claim. The invite list is covered under C32."
},
"C19": {
"status": "proved",
"note": "C19_line: a line of a registered user makes another, still existing client leave a channel only by a KICK naming both, and only if may_kick (order owner > admin > operator > half-op with equal rank allowed; +Q, user mode +q and services protected except from IRC operators; IRC operators with OperCanUseMode). C19_event lifts it to every event (lines of servers excepted)."
},
"C20": {
"status": "proved",
"note": "Per event and per line: a client of the state before gains mode o only by its own OPER line with the name and password of a configured operator whose host mask matches, or by a line of a linked server. Undisturbed states only (no server link retyped by protocol abuse). If DefaultUserModes contains o everybody becomes an operator: C20_default_modes_refuted."
},
"C21": {
"status": "proved",
"note": "In every state, for every request: no change of any table, only lines written. Remote part: G-/K-lines from server links without AllowRemoteOper."
},
"C22": {
"status": "proved",
"note": "The command table is restated in Spec.v (command_table); in every state. NOTICE is accepted before registration (refuted witness). C22_lines_are_executed_in_live_states: the reaction to received data is a sequence of actions between live states."
},
"C23": {
"status": "proved",
"note": "For every line in every live state of an undisturbed history (see Spec.v)."
},
"C24": {
"status": "proved",
"note": "C24_line: one line of a non-server moves only its sender, by a registration step, and whoever becomes a user has answered the PING cookie, ended CAP, given the right password, has a legal nick and matches no G-/K-line. C24_event lifts it to every event of every reachable history."
},
"C25": {
"status": "partial",
"note": "Local users, memberships and channels; mode strings a peer sends with NICK or CHANINFO are stored unchecked (C25_remote_modes_refuted)."
},
"C26": {
"status": "proved",
"note": "Lost connections (events, and everything the server does between commands), and SQUIT by an operator of this server, by a linked server, or by a server or operator behind it. In networks in which no server removed or renamed this server itself (undisturbed). Lines other than SQUIT which make the server close a link (e.g. protocol errors of the peer) are not stated separately."
},
"C27": {
"status": "proved",
"note": ""
},
"C28": {
"status": "partial",
"note": "Proved for KICK (one user, one channel), PART and JOIN (one channel), TOPIC, MODE of channels (any set of modes without parameter; privileges of one member; one list entry; key; limit), MODE of users (any set of letters but a, B and x), AWAY, INVITE of remote users, KILL, NICK and QUIT, given by a local user or by a user behind a linked server: the exact lines every connection is sent; every linked server except the source exactly once, users sharing several channels with somebody exactly once; and for NICK with seven and SERVER with four parameters (a server introduces a user, service or server). Missing: the other forwarded commands (NJOIN, CHANINFO, ...), users introduced to peers with the protocol of RFC 1459, and commands combining several of these."
},
"C29": {
"status": "partial",
"note": "JOIN, KICK, PART, TOPIC, MODE (modes without parameter, privileges, key, limit), INVITE and messages on local channels are not told to servers. Refuted for list modes (MODE &c +b/+e/+I is sent to all servers) and for NJOIN by a peer."
},
"C30": {
"status": "partial",
"note": "LIST (not for operators), WHOIS, LUSERS and NAMES with parameters are proved in full for local users: everything sent is as if the secret channel did not exist. NAMES without parameters and WHO are proved with a side condition; without it the claim is false (C30_names_all_refuted: a visible user who is on the secret channel only is missing in the final list; C30_who_refuted: WHO with the name of the channel shows that it exists). Not covered: queries of users of other servers, and other commands (TOPIC, MODE, PRIVMSG) which tell that a channel exists."
},
"C31": {
"status": "partial",
"note": "Proved for channel and private messages, JOIN, KICK, PART, TOPIC, MODE (modes without parameter, privileges, lists, key, limit; modes of users), INVITE, KILL, NICK and QUIT: the exact line has the cloaked host in its prefix. Missing: commands combining several channels or modes."
},
"C32": {
"status": "proved",
"note": "C32_one_join: a JOIN of one channel by a user (no operator) who is not on it and has room uses the invitations exactly once, whether he gets in or not. C32_invite: exact effect of INVITE (between users connected to this server). C32_permanent_stay / C32_entries_stay / C32_no_new_entries: per line, whoever sends it; for clients that are not registered yet the login commands are exempted (they could execute default modes and autojoin). C32_no_chore: timers and lost connections change nothing. Who gets in is C15."
},
"C33": {
"status": "proved",
"note": "Per event and per line. The permission also covers IRC operators as the code does (an IRC operator on the channel, or with OperCanUseMode anywhere). Longer topics than 512 bytes cannot arrive in a line of at most 511 bytes; the model of the store truncates as the code does."
},
"C34": {
"status": "partial",
"note": "Proved for all operation sequences except that cat0_temporary keeps the content only when there is spare room (always after an append); the unrestricted documented claims are refuted with witnesses."
},
"C35": {
"status": "proved",
"note": "Every live state: the ring holds the newest 64 entries of the history of departures and nickname changes (C35_history), each line, chore and event adds exactly the users and services that left or were renamed and were known for 30 seconds (C35_action, C35_event). Nobody else is recorded, except that a linked server which renames itself is recorded too (dp_who constrains the nickname for users only). The other fields of the entries (user, host, info, server) are proved for NICK of local users, for every line that cannot change these fields, for closed and for lost connections (C35_content_*)."
},
"C36": {
"status": "proved",
"note": "Blocked connections are not read and execute no line in any event; delaytime never decreases in any step; exact amount of Conn_SetPenalty with the clamp."
},
"C37": {
"status": "proved",
"note": "At most 3 (10 for services and +F users) lines per pass / per read, each non-empty, without CR/LF, at most 511 bytes before its terminator; servers are not limited by the property."
},
"C38": {
"status": "proved",
"note": "Exact outcome of the check of each connection in all six cases; the check of one connection leaves the others connected; the loop checks every connection."
},
"C39": {
"status": "proved",
"note": "List level (Lists_Expire), both server ban lists use it."
},
"C40": {
"status": "partial",
"note": "Proved for every state, sender and line: MODE does not read outside its parameters unless a parameter behind the mode string is empty (only the trailing one can be); no other command does, except ISON/USERHOST, which use the assembled reply as printf format. Refuted (real defects): `MODE nick +i :`, `MODE #chan +m :`, and USERHOST of a remote user whose name contains a percent sign."
},
"C41": {
"status": "proved",
"note": "Exact output per connection of a PRIVMSG/NOTICE of a local user to a nickname: delivered line, away reply or refusal."
},
"C42": {
"status": "partial",
"note": "Exact characterisation for lines of the usual shape; the unrestricted claim is refuted: CTCP without colon passes the filter."
},
"C43": {
"status": "proved",
"note": "C43_line: caps change only by the CAP command of the client itself, exactly as cap_effect says (REQ all-or-nothing). C43_event: a negotiation ends only by CAP END of this client; with C24 (rp_cap) no registration before. C43_reply: the exact ACK/NAK line and nothing else is written."
},
"C44": {
"status": "proved",
"note": "C44_line: creator of a channel gets exactly o (nothing on + channels); joining an existing channel grants nothing, except o for an IRC operator on a +P channel with OperChanPAutoOp (a documented option)."
},
"C45": {
"status": "partial",
"note": "For every live state without O_Retype/O_Self: when the peer completes its login with the numeric 376 (all ngIRCd peers: flag H), every other known server (in the order of the hop count), every user and service (after the servers), the settings and members of every non-local channel (after the users), G-lines and channel lists are written to it, with their exact texts, and it is announced to all other links. Not covered: logins without the flag H (the same function called from SERVER). False of the code, and so excluded: servers announced with a negative hop count (C45_distance_refuted), members at the end of a line that exceeds 510 bytes with the prefix (C45_cut_refuted; C45_not_cut gives the bound), nicknames ending in a colon or of 32 and more bytes."
},
"C46": {
"status": "proved",
"note": "Wbuf.v models Conn_Write, Handle_Write and the buffer handling of Conn_Close on top of Array.v, with arbitrary answers of write(2) and realloc(3). No out-of-bounds access, the peer gets a prefix of the queued stream in order, the limits hold. ZLIB and SSL are off."
},
"C47": {
"status": "proved",
"note": "For incoming connections; outgoing ones bypass the limit (C47_outgoing_refuted)."
},
"C48": {
"status": "proved",
"note": "Per line and per event. Outgoing connections (type UNKNOWNSERVER) are not covered by the positive theorems, and C48_outgoing_refuted shows why: a peer at the other end of an outgoing connection becomes a server by sending numeric 376, without password."
}
}