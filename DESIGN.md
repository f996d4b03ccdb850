# Formal model of ngIRCd in Rocq (Coq 8.16.1)

## 1. Trusted base
* Coq's kernel (8.16.1) and its VM (`vm_compute`, used only in concrete examples and witnesses of
  refutations, and in a few finite table checks).
* `Print Assumptions` of **every** property theorem says *Closed under the global context*: no axiom is
  used, neither of the standard library nor of ours. (Loading parts of the standard library brings the
  axioms of `Coq.ssr.ssrunder` into scope, vcheck may list them; no theorem depends on them.)
* The reading of the C source into Gallina. Each definition of the model cites file and lines.
  Simplifications are named in the comments and in section 3.
* The small specifications `Spec.v`, `MatchSpec.v`, `legal_line` (Clean0.v), `clean_*` (CleanRec.v) and the statements in the `Props*.v` files.

No functors, module types, `Axiom`s, `Admitted`, plugins or switched off checks.

## 2. Build configuration that is modelled
The code as compiled with `IRCPLUS` defined; `STRICT_RFC`, `ZLIB`, `SSL_SUPPORT`, `ICONV`, `IDENTAUTH`,
`PAM`, `TCPWRAP` and `SNIFFER` not defined; `assert()` enabled. `char` is signed 8 bit, `int` 32 bit,
`long`/`size_t`/`time_t` 64 bit; C locale.

## 3. What is modelled
| C file | model | remarks |
|--------|-------|---------|
| match.c | Match.v | MatchCaseInsensitiveList as well |
| portab/strlcpy.c | Strl.v | memory level, out-of-bounds is an outcome |
| array.c | Array.v | memory level, 64 bit arithmetic, failing realloc |
| lists.c | Lists.v | lists with times, one-shot entries |
| hash.c | Hash.v | 32 bit arithmetic |
| parse.c | ParseReq.v (tokeniser), Dispatch.v (table, dispatch, numerics, prefix check, ScrubCTCP) | |
| client.c, client-cap.c | Core.v, Write.v, Login.v, Server.v | the list My_Clients, introducer tree, whowas ring |
| channel.c | Core.v, Write.v, Chan.v, Msg.v | |
| conn-func.c | Core.v | penalty, options |
| irc-write.c | Write.v | every function; printf formats are interpreted (`fmt`) |
| irc.c, irc-info.c, irc-channel.c, irc-mode.c, irc-op.c, irc-oper.c, irc-login.c, login.c, irc-cap.c, irc-server.c, irc-metadata.c, irc-encoding.c (stub), numeric.c, op.c, class.c | Info.v, Chan.v, Mode.v, Msg.v, Login.v, Oper.v, Server.v | one Gallina function per C function |
| messages.h | Messages.v | generated literally by tools/gen_messages.py |
| conn.c | Conn.v: accept, read, Handle_Buffer, ping/pong, Handle loop, Conn_Close, outgoing connections; Wbuf.v: write buffer at memory level | see below |
| conf.c | only the run-time table of servers (Conf_EnableServer, ...) and the record of settings | reading the file is not modelled |

Not modelled: configuration file parsing and REHASH (the signal is noted), logging other than what is sent
to users (`LOG_snotice`, &SERVER), `STATS m` counters, SendQ figures, the resolver and IDENT processes
(their *answers* are events), the shutdown sequence, IdleTimeout, signals, the event loop (`io.c`: which
socket becomes ready when is arbitrary input), zlib/SSL/PAM. The time is constant during one event. In the
whole-server model a write always succeeds on an open connection (a failing write is the separate event
`E_WriteError`, which may occur between any two events); failing and partial writes at the level of the
buffer are treated in Wbuf.v. A connection is identified by its socket number, addresses are text.

## 4. Shape of the whole-server model
* Bytes are `ascii`, C strings are lists without NUL; buffers of fixed size are modelled by `strlcpy`.
* The state (State.v, generated accessors) holds My_Clients with the client structures in a heap, the
  channels, the memberships (Cl2Chan), connections, ban lists, server table, whowas ring, clock, random
  numbers, and `s_out`: everything ever written, as (connection, line) pairs, newest first.
* Pointers are handles. Dereferencing a handle that is not in the heap (NULL, use after free) and failing
  assertions are the outcome `Bad`; the theorems speak about runs that do not end in `Bad`, and the known
  ways to reach `Bad` or dangling pointers are listed as findings below.
* Handlers are functions in a state monad (Monad.v), one per C function.
* `step : event -> state -> result` (Conn.v) is one event: accept, resolver answer, received bytes, pass of
  the main loop, clock, lost connection, outgoing connection. `reachable` = any history from an initial
  state with a sane configuration (`conf_ok`). `live` also contains all states in the middle of an event,
  between two actions; one *action* is one executed line or one chore of the loop. Theorems `Cnn_line` are
  about one executed line in any live state; theorems `Cnn_event` about whole events.
* Ghost variable `s_odd` (written by the model only, never read by it): notes that a *linked server* did
  something that breaks the data model: made a server or unregistered client member of a channel, turned
  its own link into a client, destroyed this server's own entry, created a channel by CHANINFO, changed
  modes to unchecked strings. Theorems with the hypothesis `undisturbed s` (nothing noted) are still about
  every behaviour of users; where peers could break the property a `_refuted` theorem shows a witness.

## 5. Proof method
* `rel X m` (Rel.v...RelCmd.v): every run of `m` relates its initial and final states by `X`. Each primitive
  change of the state has a *label* (RelBase.v); a preorder `X` that holds for the primitive changes holds for
  every handler, by one generic proof per handler. Invariants (`WF`, `Tree`, `Inv1`..`Inv5`) and frame
  properties are instances.
* Exact handler theorems (Hand*.v) open one handler and compute its effect; Attrib.v/HandLine.v lift them to
  lines and events.
* Output.v/HandSend.v compute the written lines exactly (`view`: everything but the output is unchanged).

## 6. Properties
| id | what is modelled | how it is proved |
|----|------------------|------------------|
| C01 | match.c | induction on pattern/text, against an inductive glob language (MatchSpec.v); the list form (MatchCaseInsensitiveList) against a separate definition of entries and blanks (MatchList.v) |
| C02 | strlcpy.c | memory model refined to list functions |
| C03, C39 | lists.c | invariant over operation lists |
| C04 | Lists_MakeMask | case analysis; truncation refuted |
| C05 | hash.c | congruence of the lower-cased hash |
| C06, C42 | parse.c | induction on the line |
| C07, C37 | Handle_Buffer, Conn_Handler | refinement to a pure line splitter, trace of executed lines |
| C08 | Conn_WriteStr + whole server | unary logical relation `clv` ("no CR/LF in any string", functions map clean to clean) proved for every function of the model (Clean*.v, generated by tools/gen_clv.py), then all histories |
| C09, C11-C14, C25, C27, C47 | whole server | inductive invariants over all histories |
| C10, C15, C18-C20, C33, C44 | handlers | exact handler theorems + frame: nobody else can |
| C16, C17, C41 | Send_Message, Channel_Write | exact characterisation of the appended output |
| C21-C23 | parse.c, op.c | refused commands leave everything unchanged |
| C24, C43 | login.c, irc-login.c, irc-cap.c | exact steps of registration and negotiation |
| C26 | Client_Destroy, Conn_Close, IRC_SQUIT | induction over the introducer forest (Split.v), SQUIT in HandSquit.v |
| C28, C29, C31 | irc-write.c, channel.c, irc-channel.c, irc-op.c | exact lines written to every connection by a JOIN, KICK, PART, TOPIC, MODE, INVITE, AWAY, KILL, NICK or QUIT of a local or remote user (HandTell.v: MODE, modes without parameter by induction over the letters, `flags_loop`, privileges of a member, `tell`; HandList.v: list entries, key and limit; HandInvited.v: INVITE; HandIntro.v: a server introduces a user (NICK with seven parameters), `announce_list` by induction over the clients; HandNewServer.v: a server introduces a server (SERVER with four parameters); HandUmode.v: MODE of users, `umodes_loop` by induction over the letters, and AWAY; HandKill.v: KILL of a remote user; HandJoined.v: JOIN, with the modes the new member gets and the two protocol variants of peers; HandNick.v: `related_near` is the broadcast to those who share a channel; HandCast.v: `cast` is the broadcast to servers, `chan_local` the one to members); leaks of local channels as refutations |
| C45 | numeric.c (IRC_Num_ENDOFMOTD, Announce_Server, Announce_User, Announce_Channel, Send_CHANINFO, Synchronize_Lists) | the lines that are written, exactly, by induction over the loops; all links stay writable (HandSync.v); order of the lines; counterexamples for negative hop counts and for lines that are cut |
| C30 | irc-info.c, irc-channel.c (LIST) | noninterference: `without ch s` is the state without the channel; every function which does not look at channels commutes with it (Hide0.v, Hide1.v, generated by tools/gen_hide.py), the commands by induction over their loops (HandHide.v); the leaks of NAMES and WHO as refutations |
| C32 | irc-op.c, irc-channel.c, lists.c | exact effect of one JOIN and one INVITE on the invitations; frame theorems: which commands lose or make entries (HandInvite.v) |
| C34 | array.c | invariants, 64 bit sizes |
| C35 | client.c (Client_RegisterWhowas), the callers | specification of the ring as a list, newest first (SpecWas.v); invariant tracking relation `ww` between the initial and the current state of an action, preserved by all elementary changes; renaming by hand (HandWas.v); history by induction over all runs |
| C36, C38 | conn.c, conn-func.c | per connection effect of each pass |
| C40 | irc-mode.c, every other command | "never over-reads" is closed under the monad and proved for every function of the model (Safe1.v, Safe3.v, generated by tools/gen_safe.py; MODE by a loop invariant in Safe2.v); refutation witnesses for an empty trailing parameter and for USERHOST |
| C46 | Conn_Write, Handle_Write, Conn_Close | invariant over all answers of write(2)/realloc(3) |
| C48 | irc-server.c, numeric.c | exact step of the SERVER command + frame over all lines and events (HandServer.v); refutation witness for outgoing connections |

MANIFEST.json says which theorems belong to which property and what is missing; `_partial` marks theorems
that cover only a part, `_refuted` theorems prove that a natural stronger claim is false of the code.

## 7. Findings about the code (all are theorems with suffix `_refuted` or examples)
NOTICE works before registration; DefaultUserModes can make everybody an operator; a remote user whose user
name is the name of a channel intercepts its messages; `*` at the end of masks and backslashes in masks;
masks longer than 127 bytes lose their host part; CHANINFO creates channels with illegal, duplicate names
and without members; server names as channel members; outgoing connections ignore MaxConnections; CTCP
filter bypass without colon; nick names with ';'; duplicate names with '!'; memory exhaustion drops queued
data but keeps the connection open.

## 8. Testing the theorems
`tools/mutate.py` applies an edit to a scratch copy of the model, rebuilds, replaces every broken proof by
`Admitted` and reports which property theorems depend on a broken proof. Results: seeded/LOG.jsonl.
