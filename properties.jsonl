{"id": "C01", "title": "Mask matching is exactly glob matching", "statement": "A client mask matches a ban/except/invite/G-line/K-line pattern iff the text belongs to the language of the glob pattern ('?' = any one byte, '*' = any sequence), ignoring ASCII case where the case-insensitive entry points are used; patterns ending in more than one '*' and patterns with a backslash behind a star are the documented exceptions.", "quantifier": "every pattern and every text of any length", "why_tests_cant": "the backtracking matcher with its ABORT shortcut has an unbounded input space; tests only sample pairs", "anchors": ["src/ngircd/match.c: Match, MatchCaseInsensitive, MatchCaseInsensitiveList, Matche, Matche_After_Star"]}
{"id": "C02", "title": "Bounded string primitives never overflow and always terminate", "statement": "strlcpy/strlcat into a buffer of size n>0 produce a string of at most n-1 bytes which is the longest possible prefix of the requested result, and report the length that would have been needed.", "quantifier": "every source, destination content and buffer size", "why_tests_cant": "sizes and contents are unbounded", "anchors": ["src/portab/strlcpy.c: strlcpy, strlcat"]}
{"id": "C03", "title": "Ban/except/invite lists behave like case-insensitive finite maps", "statement": "After any sequence of add, delete, expire, check and free operations on a list: no two entries are equal ignoring case; an added mask is present until it is deleted, expires or (one-shot) is used; deletion removes the mask and nothing else; re-adding an existing mask refreshes it instead of duplicating it.", "quantifier": "every sequence of list operations, masks and times", "why_tests_cant": "quantifies over all operation histories", "anchors": ["src/ngircd/lists.c: Lists_Add, Lists_Del, Lists_CheckReason, Lists_Expire, Lists_CheckDupeMask"]}
{"id": "C04", "title": "Ban masks are normalised to nick!user@host", "statement": "Every mask given by a user to a ban/invite/except or G-/K-line command is turned into a mask containing both '!' and '@' of at most 127 bytes, and a mask already of that shape is kept unchanged.", "quantifier": "every input mask", "why_tests_cant": "input space unbounded (lengths, positions of ! and @)", "anchors": ["src/ngircd/lists.c: Lists_MakeMask"]}
{"id": "C05", "title": "Name lookup by hash equals name lookup by comparison", "statement": "Looking up a nickname/server or channel name (which compares a 32 bit hash first) finds exactly what a plain case-insensitive comparison would find: equal names ignoring case always have equal hashes.", "quantifier": "every name, every table content", "why_tests_cant": "hash collisions/mismatches cannot be excluded by sampling", "anchors": ["src/ngircd/hash.c: Hash, jenkins_hash", "src/ngircd/client.c: Client_Search", "src/ngircd/channel.c: Channel_Search"]}
{"id": "C06", "title": "Request parsing accepts at most 15 parameters and round-trips", "statement": "Parsing a line built from prefix, command and up to 15 parameters (all but the last non-empty, without blanks and not starting with ':') yields exactly this prefix, command and parameters; no line yields more than 15 parameters.", "quantifier": "every line and every prefix/command/parameter list", "why_tests_cant": "all lines/all parameter vectors", "anchors": ["src/ngircd/parse.c: Parse_Request, Init_Request"]}
{"id": "C07", "title": "Line framing is independent of TCP segmentation", "statement": "However a byte stream of lines of at most 510 bytes is cut into network reads, the server executes the same sequence of non-empty lines in the same order.", "quantifier": "every byte stream and every way to cut it into chunks", "why_tests_cant": "exponentially many segmentations of unbounded streams", "anchors": ["src/ngircd/conn.c: Read_Request, Handle_Buffer"]}
{"id": "C08", "title": "Every line sent is a legal IRC message", "statement": "Each write to a client or server is at most 512 bytes long, ends in CR LF, and contains no other CR, LF or NUL, whatever data users supplied (no protocol injection).", "quantifier": "every message text; for the injection part every history of commands", "why_tests_cant": "all user-supplied strings flow into outputs over all histories", "anchors": ["src/ngircd/conn.c: Conn_WriteStr", "src/ngircd/irc-write.c"]}
{"id": "C09", "title": "Nicknames are valid", "statement": "A nickname accepted from a user is non-empty, shorter than the configured limit, starts with a letter or one of []\\`_^{|} and contains only letters, digits, '-' and these characters.", "quantifier": "every nickname string and configured limit", "why_tests_cant": "unbounded strings", "anchors": ["src/ngircd/client.c: Client_IsValidNick", "src/ngircd/irc-login.c: IRC_NICK"]}
{"id": "C10", "title": "Channel names are valid", "statement": "A channel created by the JOIN of a user registered with this server has a name starting with one of the configured channel prefixes (# & +), shorter than 51 bytes and without blank, comma, colon or ^G.", "quantifier": "every JOIN argument, every history", "why_tests_cant": "all names", "anchors": ["src/ngircd/channel.c: Channel_IsValidName, Channel_Join", "src/ngircd/irc-channel.c: IRC_JOIN"]}
{"id": "C11", "title": "Nicknames are unique", "statement": "At no time do two registered clients share a nickname (ignoring case), and looking up a nickname is unambiguous.", "quantifier": "every history of events", "why_tests_cant": "all interleavings of connects, nick changes, collisions, server bursts", "anchors": ["src/ngircd/client.c: Client_CheckNick, Client_CheckID, Client_SetID, Client_Search", "src/ngircd/irc-login.c: IRC_NICK"]}
{"id": "C12", "title": "Channel names are unique", "statement": "At no time do two channels have names equal ignoring case.", "quantifier": "every history of events", "why_tests_cant": "all histories", "anchors": ["src/ngircd/channel.c: Channel_Join, Channel_Create, Channel_Search, New_Chan"]}
{"id": "C13", "title": "Channel membership is a set of live pairs", "statement": "At every moment each membership refers to an existing client and an existing channel, and a client is on a channel at most once; when a client quits or is killed it disappears from all channels.", "quantifier": "every history of events", "why_tests_cant": "all histories", "anchors": ["src/ngircd/channel.c: Add_Client, Remove_Client, Channel_Quit, Free_Channel", "src/ngircd/client.c: Client_Destroy"]}
{"id": "C14", "title": "Empty channels vanish, persistent channels stay", "statement": "After any command a channel without members exists only if it is persistent (+P) (or predefined); the last member leaving removes the channel together with its bans, key, topic and modes.", "quantifier": "every history of events", "why_tests_cant": "all histories", "anchors": ["src/ngircd/channel.c: Remove_Client, Delete_Channel", "src/ngircd/irc-mode.c: Channel_Mode"]}
{"id": "C15", "title": "Only admitted users get on a channel", "statement": "The JOIN of a user registered with this server to an existing channel succeeds only if: not banned unless excepted or invited; invited when +i; correct key when +k; member count below limit when +l; secure when +z; oper when +O; registered when +R - unless he is a server-wide operator.", "quantifier": "every server state, local user and JOIN request", "why_tests_cant": "the decision depends on all combinations of modes, lists and members", "anchors": ["src/ngircd/irc-channel.c: join_allowed, IRC_JOIN"]}
{"id": "C16", "title": "Channel messages obey the channel's modes", "statement": "A message to a channel is relayed only if the sender is the server, or: member when +n; registered/oper when +M; voiced or better when +m; not banned (unless excepted or privileged).", "quantifier": "every server state, sender and message", "why_tests_cant": "all combinations of modes, status and lists", "anchors": ["src/ngircd/channel.c: Can_Send_To_Channel, Channel_Write"]}
{"id": "C17", "title": "A channel message reaches every member exactly once and nobody else", "statement": "When a message to a channel is accepted it is written exactly once to the connection of every other local member and to every server link behind which another member lives, and to no other connection, and not back to where it came from.", "quantifier": "every server state and message", "why_tests_cant": "all membership/topology combinations", "anchors": ["src/ngircd/irc-write.c: IRC_WriteStrChannelPrefix", "src/ngircd/channel.c: Channel_Write"]}
{"id": "C18", "title": "Only privileged users change a channel", "statement": "A MODE command of a user who is neither (half-)operator/admin/owner of the channel nor a permitted IRC operator leaves all modes, key, limit, lists and member privileges of the channel unchanged; each privilege level can only change what it is entitled to.", "quantifier": "every state, user and MODE argument vector", "why_tests_cant": "unbounded argument vectors with state carried between letters", "anchors": ["src/ngircd/irc-mode.c: Channel_Mode"]}
{"id": "C19", "title": "KICK follows the privilege hierarchy", "statement": "A KICK by a user removes a member only if the kicker is on the channel, holds half-op or better and not less privilege than the kicked member, and the victim is not protected; otherwise the membership is unchanged.", "quantifier": "every state, kicker, victim", "why_tests_cant": "all privilege combinations", "anchors": ["src/ngircd/channel.c: Channel_Kick"]}
{"id": "C20", "title": "No privilege escalation to IRC operator", "statement": "The user mode 'o' of a local user changes from unset to set only by an OPER command with a configured name, its password, and a matching host mask (or by a linked server); MODE can only remove it.", "quantifier": "every history of commands of local users", "why_tests_cant": "all histories", "anchors": ["src/ngircd/irc-oper.c: IRC_OPER", "src/ngircd/irc-mode.c: Client_Mode"]}
{"id": "C21", "title": "Operator-only commands need operator privilege", "statement": "DIE, RESTART, REHASH, CONNECT, DISCONNECT, KILL, GLINE/KLINE, SQUIT, WALLOPS have no effect other than an error reply when issued by a user who is not an IRC operator (resp. a remote operator without AllowRemoteOper).", "quantifier": "every state, client and arguments", "why_tests_cant": "all states", "anchors": ["src/ngircd/op.c: Op_Check", "src/ngircd/irc-oper.c", "src/ngircd/irc-server.c: IRC_SQUIT", "src/ngircd/irc.c: IRC_KILL"]}
{"id": "C22", "title": "Commands are only executed for permitted client types", "statement": "A command reaches its handler only if the connection is in one of the registration states listed for it in the command table and the parameter count is within the listed limits; in particular before registration only the registration commands have any effect.", "quantifier": "every request line and client state", "why_tests_cant": "all", "anchors": ["src/ngircd/parse.c: Handle_Request, _Commands"]}
{"id": "C23", "title": "Nobody can forge the origin of a command", "statement": "A command from a user connection is only accepted with a missing prefix or the user's own prefix; a command from a server link is only accepted when the prefix names a client that is reached through this very link.", "quantifier": "every state, connection, prefix", "why_tests_cant": "all topologies", "anchors": ["src/ngircd/parse.c: Validate_Prefix"]}
{"id": "C24", "title": "Registration requires nick, user, password and no ban", "statement": "A connection becomes a registered user only after NICK and USER were accepted, the PING cookie (if enabled) was answered, CAP negotiation ended, the connection password matches the configured one, and no G-/K-line matches.", "quantifier": "every sequence of commands on a new connection", "why_tests_cant": "all orders of PASS/NICK/USER/PONG/CAP", "anchors": ["src/ngircd/login.c: Login_User, Login_User_PostAuth", "src/ngircd/irc-login.c", "src/ngircd/class.c: Class_HandleServerBans"]}
{"id": "C25", "title": "Mode strings are sets", "statement": "User, channel and membership mode strings contain every letter at most once, never exceed 20 letters, and adding then testing/deleting a letter behaves like a set (as long as there is room).", "quantifier": "every sequence of mode changes", "why_tests_cant": "all histories", "anchors": ["src/ngircd/client.c: Client_ModeAdd, Client_ModeDel", "src/ngircd/channel.c: Channel_ModeAdd, Channel_UserModeAdd"]}
{"id": "C26", "title": "A netsplit removes exactly the lost part of the network", "statement": "When a server link is lost or SQUIT, exactly the servers, users and services that were introduced via this server disappear (from client list and channels), everything else stays.", "quantifier": "every topology", "why_tests_cant": "recursive removal over arbitrary trees", "anchors": ["src/ngircd/client.c: Client_Destroy"]}
{"id": "C27", "title": "Server tokens are unique", "statement": "Each known server has a token of its own, never equal to 1 (this server) or another live server's token.", "quantifier": "every history of server introductions and losses", "why_tests_cant": "all histories", "anchors": ["src/ngircd/client.c: Generate_MyToken, Client_NewRemoteServer"]}
{"id": "C28", "title": "Broadcasts to servers never return to their source", "statement": "State changes are forwarded to every directly linked server except the one they came from, each exactly once.", "quantifier": "every topology and command", "why_tests_cant": "all topologies", "anchors": ["src/ngircd/irc-write.c: IRC_WriteStrServersPrefixFlag_CB"]}
{"id": "C29", "title": "Local channels stay local", "statement": "Nothing about a channel whose name starts with '&' (joins, parts, kicks, modes, topic, messages) is ever sent to another server.", "quantifier": "every history", "why_tests_cant": "all histories", "anchors": ["src/ngircd/channel.h: Channel_IsLocal", "src/ngircd/irc-channel.c", "src/ngircd/irc-mode.c: Send_ListChange"]}
{"id": "C30", "title": "Secret channels are invisible to outsiders", "statement": "LIST, NAMES, WHO and WHOIS never reveal the name of a +s channel (or membership in it) to a user who is not on it (operators excepted where documented).", "quantifier": "every state and query", "why_tests_cant": "all states", "anchors": ["src/ngircd/irc-channel.c: IRC_LIST", "src/ngircd/irc-info.c: IRC_NAMES, IRC_WHO, IRC_WHOIS"]}
{"id": "C31", "title": "Cloaked host names are not revealed to users", "statement": "Lines relayed from a user with mode +x to other users carry the cloaked host name in the prefix, never the real one.", "quantifier": "every state and message", "why_tests_cant": "all relays", "anchors": ["src/ngircd/client.c: Client_MaskCloaked", "src/ngircd/irc-write.c"]}
{"id": "C32", "title": "An invitation to an invite-only channel is good for one join", "statement": "A one-shot invite created by INVITE admits the invited mask for exactly one join attempt and then disappears; invite list entries set by +I stay.", "quantifier": "every sequence of INVITE/JOIN", "why_tests_cant": "histories", "anchors": ["src/ngircd/irc-channel.c: join_allowed", "src/ngircd/irc-op.c: IRC_INVITE", "src/ngircd/lists.c"]}
{"id": "C33", "title": "Topic changes need the right", "statement": "A user's TOPIC command changes the topic only if he is on the channel and the channel is not +t or he is half-op or better; the stored topic is the given text.", "quantifier": "every state and TOPIC command", "why_tests_cant": "all states", "anchors": ["src/ngircd/irc-channel.c: IRC_TOPIC"]}
{"id": "C34", "title": "Dynamic arrays stay consistent", "statement": "After any sequence of array operations: used <= allocated, reading below the used length returns what was written, appending preserves the old content, moving left drops exactly the given number of bytes, and no size computation overflows undetected.", "quantifier": "every sequence of operations, every size including near SIZE_MAX", "why_tests_cant": "all sequences", "anchors": ["src/ngircd/array.c"]}
{"id": "C35", "title": "WHOWAS history is the most recent bounded history", "statement": "The WHOWAS list always holds the last (at most 64) registered departures/nick changes that lived at least 30 seconds, newest first.", "quantifier": "every history", "why_tests_cant": "all histories", "anchors": ["src/ngircd/client.c: Client_RegisterWhowas, Client_GetLastWhowasIndex"]}
{"id": "C36", "title": "Penalties only grow and really block", "statement": "While a connection's penalty time lies in the future none of its commands is executed; adding a penalty never makes the block end earlier; penalties below 10s are clamped to the configured maximum.", "quantifier": "every sequence of penalties and times", "why_tests_cant": "histories", "anchors": ["src/ngircd/conn-func.c: Conn_SetPenalty", "src/ngircd/conn.c: Handle_Buffer"]}
{"id": "C37", "title": "At most 3 commands per user per loop; overlong requests are rejected", "statement": "One pass over a user's read buffer executes at most 3 commands (10 for services/+F users), and never a line longer than 512 bytes including its terminator.", "quantifier": "every buffer content", "why_tests_cant": "all buffers", "anchors": ["src/ngircd/conn.c: Handle_Buffer"]}
{"id": "C38", "title": "Dead connections are detected, live ones are not dropped", "statement": "A registered connection silent for PingTimeout seconds is PINGed, and closed when it stays silent for PongTimeout further seconds; a connection that sent data since the last PING is never closed by the timeout check.", "quantifier": "every schedule of data arrival and checks", "why_tests_cant": "schedules", "anchors": ["src/ngircd/conn.c: Check_Connections"]}
{"id": "C39", "title": "Expired bans vanish, permanent bans stay", "statement": "Class_Expire removes exactly the G-/K-lines whose expiry time is positive and in the past.", "quantifier": "every list and time", "why_tests_cant": "all", "anchors": ["src/ngircd/class.c: Class_Expire", "src/ngircd/lists.c: Lists_Expire"]}
{"id": "C40", "title": "MODE never reads outside the request", "statement": "Processing a MODE command only interprets the parameters of this command.", "quantifier": "every MODE parameter vector", "why_tests_cant": "all vectors", "anchors": ["src/ngircd/irc-mode.c: Client_Mode, Channel_Mode"]}
{"id": "C41", "title": "Private messages obey the recipient's modes", "statement": "A PRIVMSG to a user is delivered exactly to this user's connection (or towards his server) if allowed by the modes +b/+C of the recipient, and the sender gets the away message if the recipient is away.", "quantifier": "every state, sender, target list", "why_tests_cant": "all", "anchors": ["src/ngircd/irc.c: Send_Message"]}
{"id": "C42", "title": "CTCP is not filtered except when configured", "statement": "With ScrubCTCP enabled no CTCP request other than ACTION gets through; everything else is unchanged.", "quantifier": "every line", "why_tests_cant": "all lines", "anchors": ["src/ngircd/parse.c: ScrubCTCP"]}
{"id": "C43", "title": "CAP negotiation holds back registration until CAP END", "statement": "A client that started CAP negotiation is not registered before CAP END; REQ is all-or-nothing: either all requested capabilities are changed and ACKed or none is changed and NAKed.", "quantifier": "every CAP REQ argument", "why_tests_cant": "all", "anchors": ["src/ngircd/irc-cap.c: Parse_CAP, Handle_CAP_REQ, Handle_CAP_END", "src/ngircd/login.c: Login_User"]}
{"id": "C44", "title": "Every channel has an operator when created by a user", "statement": "The user who creates a channel by JOIN becomes channel operator unless the channel is modeless (+), predefined or persistent; joining an existing channel never grants privileges.", "quantifier": "every state and JOIN", "why_tests_cant": "all states", "anchors": ["src/ngircd/irc-channel.c: join_set_channelmodes, IRC_JOIN"]}
{"id": "C45", "title": "Server synchronisation is complete", "statement": "When a server link is established, every known user, service, server (except the peer and ourselves) and every non-local channel with all its members is announced to the peer.", "quantifier": "every state", "why_tests_cant": "all states", "anchors": ["src/ngircd/numeric.c: IRC_Num_ENDOFMOTD, Announce_Channel"]}
{"id": "C46", "title": "Write buffer limits", "statement": "Data queued for a connection never exceeds the limit (32 KiB for clients, 64 KiB for server links); the peer receives a prefix of exactly the queued byte stream in order, whatever the partial writes of the kernel.", "quantifier": "every sequence of writes and partial flushes", "why_tests_cant": "schedules", "anchors": ["src/ngircd/conn.c: Conn_Write, Handle_Write"]}
{"id": "C47", "title": "Connection limits", "statement": "The number of established connections never exceeds MaxConnections and per address MaxConnectionsIP (when configured).", "quantifier": "every sequence of accepts and closes", "why_tests_cant": "histories", "anchors": ["src/ngircd/conn.c: New_Connection, Conn_Close, Count_Connections"]}
{"id": "C48", "title": "Server links are authenticated", "statement": "A connection becomes a server link only if it has introduced itself with the name of a configured server and has sent the password configured for it.", "quantifier": "every state and every line", "why_tests_cant": "all histories", "anchors": ["src/ngircd/irc-server.c: IRC_SERVER", "src/ngircd/numeric.c: IRC_Num_ENDOFMOTD", "src/ngircd/irc-login.c: IRC_PASS"]}
