#!/usr/bin/env python3
# Generates /verif/properties.jsonl (one JSON object per line).
import json
P=[]
def p(id,title,statement,quantifier,why,anchors):
    P.append(dict(id=id,title=title,statement=statement,quantifier=quantifier,why_tests_cant=why,anchors=anchors))

p("C01","Mask matching is exactly glob matching",
 "A client mask matches a ban/except/invite/G-line/K-line pattern iff the text belongs to the language of the glob pattern ('?' = any one byte, '*' = any sequence), ignoring ASCII case where the case-insensitive entry points are used; patterns ending in more than one '*' and patterns with a backslash behind a star are the documented exceptions.",
 "every pattern and every text of any length",
 "the backtracking matcher with its ABORT shortcut has an unbounded input space; tests only sample pairs",
 ["src/ngircd/match.c: Match, MatchCaseInsensitive, MatchCaseInsensitiveList, Matche, Matche_After_Star"])
p("C02","Bounded string primitives never overflow and always terminate",
 "strlcpy/strlcat into a buffer of size n>0 produce a string of at most n-1 bytes which is the longest possible prefix of the requested result, and report the length that would have been needed.",
 "every source, destination content and buffer size",
 "sizes and contents are unbounded",
 ["src/portab/strlcpy.c: strlcpy, strlcat"])
p("C03","Ban/except/invite lists behave like case-insensitive finite maps",
 "After any sequence of add, delete, expire, check and free operations on a list: no two entries are equal ignoring case; an added mask is present until it is deleted, expires or (one-shot) is used; deletion removes the mask and nothing else; re-adding an existing mask refreshes it instead of duplicating it.",
 "every sequence of list operations, masks and times",
 "quantifies over all operation histories",
 ["src/ngircd/lists.c: Lists_Add, Lists_Del, Lists_CheckReason, Lists_Expire, Lists_CheckDupeMask"])
p("C04","Ban masks are normalised to nick!user@host",
 "Every mask given by a user to a ban/invite/except or G-/K-line command is turned into a mask containing both '!' and '@' of at most 127 bytes, and a mask already of that shape is kept unchanged.",
 "every input mask",
 "input space unbounded (lengths, positions of ! and @)",
 ["src/ngircd/lists.c: Lists_MakeMask"])
p("C05","Name lookup by hash equals name lookup by comparison",
 "Looking up a nickname/server or channel name (which compares a 32 bit hash first) finds exactly what a plain case-insensitive comparison would find: equal names ignoring case always have equal hashes.",
 "every name, every table content",
 "hash collisions/mismatches cannot be excluded by sampling",
 ["src/ngircd/hash.c: Hash, jenkins_hash","src/ngircd/client.c: Client_Search","src/ngircd/channel.c: Channel_Search"])
p("C06","Request parsing accepts at most 15 parameters and round-trips",
 "Parsing a line built from prefix, command and up to 15 parameters (all but the last non-empty, without blanks and not starting with ':') yields exactly this prefix, command and parameters; no line yields more than 15 parameters.",
 "every line and every prefix/command/parameter list",
 "all lines/all parameter vectors",
 ["src/ngircd/parse.c: Parse_Request, Init_Request"])
p("C07","Line framing is independent of TCP segmentation",
 "However a byte stream of lines of at most 510 bytes is cut into network reads, the server executes the same sequence of non-empty lines in the same order.",
 "every byte stream and every way to cut it into chunks",
 "exponentially many segmentations of unbounded streams",
 ["src/ngircd/conn.c: Read_Request, Handle_Buffer"])
p("C08","Every line sent is a legal IRC message",
 "Each write to a client or server is at most 512 bytes long, ends in CR LF, and contains no other CR, LF or NUL, whatever data users supplied (no protocol injection).",
 "every message text; for the injection part every history of commands",
 "all user-supplied strings flow into outputs over all histories",
 ["src/ngircd/conn.c: Conn_WriteStr","src/ngircd/irc-write.c"])
p("C09","Nicknames are valid",
 "A nickname accepted from a user is non-empty, shorter than the configured limit, starts with a letter or one of []\\`_^{|} and contains only letters, digits, '-' and these characters.",
 "every nickname string and configured limit",
 "unbounded strings",
 ["src/ngircd/client.c: Client_IsValidNick","src/ngircd/irc-login.c: IRC_NICK"])
p("C10","Channel names are valid",
 "A channel created by the JOIN of a user registered with this server has a name starting with one of the configured channel prefixes (# & +), shorter than 51 bytes and without blank, comma, colon or ^G.",
 "every JOIN argument, every history",
 "all names",
 ["src/ngircd/channel.c: Channel_IsValidName, Channel_Join","src/ngircd/irc-channel.c: IRC_JOIN"])
p("C11","Nicknames are unique",
 "At no time do two registered clients share a nickname (ignoring case), and looking up a nickname is unambiguous.",
 "every history of events",
 "all interleavings of connects, nick changes, collisions, server bursts",
 ["src/ngircd/client.c: Client_CheckNick, Client_CheckID, Client_SetID, Client_Search","src/ngircd/irc-login.c: IRC_NICK"])
p("C12","Channel names are unique",
 "At no time do two channels have names equal ignoring case.",
 "every history of events","all histories",
 ["src/ngircd/channel.c: Channel_Join, Channel_Create, Channel_Search, New_Chan"])
p("C13","Channel membership is a set of live pairs",
 "At every moment each membership refers to an existing client and an existing channel, and a client is on a channel at most once; when a client quits or is killed it disappears from all channels.",
 "every history of events","all histories",
 ["src/ngircd/channel.c: Add_Client, Remove_Client, Channel_Quit, Free_Channel","src/ngircd/client.c: Client_Destroy"])
p("C14","Empty channels vanish, persistent channels stay",
 "After any command a channel without members exists only if it is persistent (+P) (or predefined); the last member leaving removes the channel together with its bans, key, topic and modes.",
 "every history of events","all histories",
 ["src/ngircd/channel.c: Remove_Client, Delete_Channel","src/ngircd/irc-mode.c: Channel_Mode"])
p("C15","Only admitted users get on a channel",
 "The JOIN of a user registered with this server to an existing channel succeeds only if: not banned unless excepted or invited; invited when +i; correct key when +k; member count below limit when +l; secure when +z; oper when +O; registered when +R - unless he is a server-wide operator.",
 "every server state, local user and JOIN request",
 "the decision depends on all combinations of modes, lists and members",
 ["src/ngircd/irc-channel.c: join_allowed, IRC_JOIN"])
p("C16","Channel messages obey the channel's modes",
 "A message to a channel is relayed only if the sender is the server, or: member when +n; registered/oper when +M; voiced or better when +m; not banned (unless excepted or privileged).",
 "every server state, sender and message",
 "all combinations of modes, status and lists",
 ["src/ngircd/channel.c: Can_Send_To_Channel, Channel_Write"])
p("C17","A channel message reaches every member exactly once and nobody else",
 "When a message to a channel is accepted it is written exactly once to the connection of every other local member and to every server link behind which another member lives, and to no other connection, and not back to where it came from.",
 "every server state and message",
 "all membership/topology combinations",
 ["src/ngircd/irc-write.c: IRC_WriteStrChannelPrefix","src/ngircd/channel.c: Channel_Write"])
p("C18","Only privileged users change a channel",
 "A MODE command of a user who is neither (half-)operator/admin/owner of the channel nor a permitted IRC operator leaves all modes, key, limit, lists and member privileges of the channel unchanged; each privilege level can only change what it is entitled to.",
 "every state, user and MODE argument vector",
 "unbounded argument vectors with state carried between letters",
 ["src/ngircd/irc-mode.c: Channel_Mode"])
p("C19","KICK follows the privilege hierarchy",
 "A KICK by a user removes a member only if the kicker is on the channel, holds half-op or better and not less privilege than the kicked member, and the victim is not protected; otherwise the membership is unchanged.",
 "every state, kicker, victim","all privilege combinations",
 ["src/ngircd/channel.c: Channel_Kick"])
p("C20","No privilege escalation to IRC operator",
 "The user mode 'o' of a local user changes from unset to set only by an OPER command with a configured name, its password, and a matching host mask (or by a linked server); MODE can only remove it.",
 "every history of commands of local users","all histories",
 ["src/ngircd/irc-oper.c: IRC_OPER","src/ngircd/irc-mode.c: Client_Mode"])
p("C21","Operator-only commands need operator privilege",
 "DIE, RESTART, REHASH, CONNECT, DISCONNECT, KILL, GLINE/KLINE, SQUIT, WALLOPS have no effect other than an error reply when issued by a user who is not an IRC operator (resp. a remote operator without AllowRemoteOper).",
 "every state, client and arguments","all states",
 ["src/ngircd/op.c: Op_Check","src/ngircd/irc-oper.c","src/ngircd/irc-server.c: IRC_SQUIT","src/ngircd/irc.c: IRC_KILL"])
p("C22","Commands are only executed for permitted client types",
 "A command reaches its handler only if the connection is in one of the registration states listed for it in the command table and the parameter count is within the listed limits; in particular before registration only the registration commands have any effect.",
 "every request line and client state","all",
 ["src/ngircd/parse.c: Handle_Request, _Commands"])
p("C23","Nobody can forge the origin of a command",
 "A command from a user connection is only accepted with a missing prefix or the user's own prefix; a command from a server link is only accepted when the prefix names a client that is reached through this very link.",
 "every state, connection, prefix","all topologies",
 ["src/ngircd/parse.c: Validate_Prefix"])
p("C24","Registration requires nick, user, password and no ban",
 "A connection becomes a registered user only after NICK and USER were accepted, the PING cookie (if enabled) was answered, CAP negotiation ended, the connection password matches the configured one, and no G-/K-line matches.",
 "every sequence of commands on a new connection","all orders of PASS/NICK/USER/PONG/CAP",
 ["src/ngircd/login.c: Login_User, Login_User_PostAuth","src/ngircd/irc-login.c","src/ngircd/class.c: Class_HandleServerBans"])
p("C25","Mode strings are sets",
 "User, channel and membership mode strings contain every letter at most once, never exceed 20 letters, and adding then testing/deleting a letter behaves like a set (as long as there is room).",
 "every sequence of mode changes","all histories",
 ["src/ngircd/client.c: Client_ModeAdd, Client_ModeDel","src/ngircd/channel.c: Channel_ModeAdd, Channel_UserModeAdd"])
p("C26","A netsplit removes exactly the lost part of the network",
 "When a server link is lost or SQUIT, exactly the servers, users and services that were introduced via this server disappear (from client list and channels), everything else stays.",
 "every topology","recursive removal over arbitrary trees",
 ["src/ngircd/client.c: Client_Destroy"])
p("C27","Server tokens are unique",
 "Each known server has a token of its own, never equal to 1 (this server) or another live server's token.",
 "every history of server introductions and losses","all histories",
 ["src/ngircd/client.c: Generate_MyToken, Client_NewRemoteServer"])
p("C28","Broadcasts to servers never return to their source",
 "State changes are forwarded to every directly linked server except the one they came from, each exactly once.",
 "every topology and command","all topologies",
 ["src/ngircd/irc-write.c: IRC_WriteStrServersPrefixFlag_CB"])
p("C29","Local channels stay local",
 "Nothing about a channel whose name starts with '&' (joins, parts, kicks, modes, topic, messages) is ever sent to another server.",
 "every history","all histories",
 ["src/ngircd/channel.h: Channel_IsLocal","src/ngircd/irc-channel.c","src/ngircd/irc-mode.c: Send_ListChange"])
p("C30","Secret channels are invisible to outsiders",
 "LIST, NAMES, WHO and WHOIS never reveal the name of a +s channel (or membership in it) to a user who is not on it (operators excepted where documented).",
 "every state and query","all states",
 ["src/ngircd/irc-channel.c: IRC_LIST","src/ngircd/irc-info.c: IRC_NAMES, IRC_WHO, IRC_WHOIS"])
p("C31","Cloaked host names are not revealed to users",
 "Lines relayed from a user with mode +x to other users carry the cloaked host name in the prefix, never the real one.",
 "every state and message","all relays",
 ["src/ngircd/client.c: Client_MaskCloaked","src/ngircd/irc-write.c"])
p("C32","An invitation to an invite-only channel is good for one join",
 "A one-shot invite created by INVITE admits the invited mask for exactly one join attempt and then disappears; invite list entries set by +I stay.",
 "every sequence of INVITE/JOIN","histories",
 ["src/ngircd/irc-channel.c: join_allowed","src/ngircd/irc-op.c: IRC_INVITE","src/ngircd/lists.c"])
p("C33","Topic changes need the right",
 "A user's TOPIC command changes the topic only if he is on the channel and the channel is not +t or he is half-op or better; the stored topic is the given text.",
 "every state and TOPIC command","all states",
 ["src/ngircd/irc-channel.c: IRC_TOPIC"])
p("C34","Dynamic arrays stay consistent",
 "After any sequence of array operations: used <= allocated, reading below the used length returns what was written, appending preserves the old content, moving left drops exactly the given number of bytes, and no size computation overflows undetected.",
 "every sequence of operations, every size including near SIZE_MAX","all sequences",
 ["src/ngircd/array.c"])
p("C35","WHOWAS history is the most recent bounded history",
 "The WHOWAS list always holds the last (at most 64) registered departures/nick changes that lived at least 30 seconds, newest first.",
 "every history","all histories",
 ["src/ngircd/client.c: Client_RegisterWhowas, Client_GetLastWhowasIndex"])
p("C36","Penalties only grow and really block",
 "While a connection's penalty time lies in the future none of its commands is executed; adding a penalty never makes the block end earlier; penalties below 10s are clamped to the configured maximum.",
 "every sequence of penalties and times","histories",
 ["src/ngircd/conn-func.c: Conn_SetPenalty","src/ngircd/conn.c: Handle_Buffer"])
p("C37","At most 3 commands per user per loop; overlong requests are rejected",
 "One pass over a user's read buffer executes at most 3 commands (10 for services/+F users), and never a line longer than 512 bytes including its terminator.",
 "every buffer content","all buffers",
 ["src/ngircd/conn.c: Handle_Buffer"])
p("C38","Dead connections are detected, live ones are not dropped",
 "A registered connection silent for PingTimeout seconds is PINGed, and closed when it stays silent for PongTimeout further seconds; a connection that sent data since the last PING is never closed by the timeout check.",
 "every schedule of data arrival and checks","schedules",
 ["src/ngircd/conn.c: Check_Connections"])
p("C39","Expired bans vanish, permanent bans stay",
 "Class_Expire removes exactly the G-/K-lines whose expiry time is positive and in the past.",
 "every list and time","all",
 ["src/ngircd/class.c: Class_Expire","src/ngircd/lists.c: Lists_Expire"])
p("C40","MODE never reads outside the request",
 "Processing a MODE command only interprets the parameters of this command.",
 "every MODE parameter vector","all vectors",
 ["src/ngircd/irc-mode.c: Client_Mode, Channel_Mode"])
p("C41","Private messages obey the recipient's modes",
 "A PRIVMSG to a user is delivered exactly to this user's connection (or towards his server) if allowed by the modes +b/+C of the recipient, and the sender gets the away message if the recipient is away.",
 "every state, sender, target list","all",
 ["src/ngircd/irc.c: Send_Message"])
p("C42","CTCP is not filtered except when configured",
 "With ScrubCTCP enabled no CTCP request other than ACTION gets through; everything else is unchanged.",
 "every line","all lines",
 ["src/ngircd/parse.c: ScrubCTCP"])
p("C43","CAP negotiation holds back registration until CAP END",
 "A client that started CAP negotiation is not registered before CAP END; REQ is all-or-nothing: either all requested capabilities are changed and ACKed or none is changed and NAKed.",
 "every CAP REQ argument","all",
 ["src/ngircd/irc-cap.c: Parse_CAP, Handle_CAP_REQ, Handle_CAP_END","src/ngircd/login.c: Login_User"])
p("C44","Every channel has an operator when created by a user",
 "The user who creates a channel by JOIN becomes channel operator unless the channel is modeless (+), predefined or persistent; joining an existing channel never grants privileges.",
 "every state and JOIN","all states",
 ["src/ngircd/irc-channel.c: join_set_channelmodes, IRC_JOIN"])
p("C45","Server synchronisation is complete",
 "When a server link is established, every known user, service, server (except the peer and ourselves) and every non-local channel with all its members is announced to the peer.",
 "every state","all states",
 ["src/ngircd/numeric.c: IRC_Num_ENDOFMOTD, Announce_Channel"])
p("C46","Write buffer limits",
 "Data queued for a connection never exceeds the limit (32 KiB for clients, 64 KiB for server links); the peer receives a prefix of exactly the queued byte stream in order, whatever the partial writes of the kernel.",
 "every sequence of writes and partial flushes","schedules",
 ["src/ngircd/conn.c: Conn_Write, Handle_Write"])
p("C47","Connection limits",
 "The number of established connections never exceeds MaxConnections and per address MaxConnectionsIP (when configured).",
 "every sequence of accepts and closes","histories",
 ["src/ngircd/conn.c: New_Connection, Conn_Close, Count_Connections"])
p("C48","Server links are authenticated",
 "A connection becomes a server link only if it has introduced itself with the name of a configured server and has sent the password configured for it.",
 "every state and every line","all histories",
 ["src/ngircd/irc-server.c: IRC_SERVER","src/ngircd/numeric.c: IRC_Num_ENDOFMOTD","src/ngircd/irc-login.c: IRC_PASS"])
with open('/verif/properties.jsonl','w') as f:
    for x in P: f.write(json.dumps(x)+"\n")
print(len(P))
