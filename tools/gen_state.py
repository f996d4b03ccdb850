#!/usr/bin/env python3
"""Generates rocq/theories/State.v: the records of the server state with their field setters
(pure boilerplate; committed as an ordinary source file)."""
import os
out = []
def rec(name, mk, cite, fields):
    out.append(f"(** {cite} *)")
    out.append(f"Record {name} := {mk} {{")
    out.append(";\n".join(f"  {f} : {t}" for f, t, *_ in fields))
    out.append("}.\n")
    for i, (f, t, *_) in enumerate(fields):
        args = " ".join("v" if j == i else f"({g} r)" for j, (g, *_) in enumerate(fields))
        out.append(f"Definition set_{f} (v : {t}) (r : {name}) : {name} := {mk} {args}.")
    out.append("")

HEAD = '''(** State of the modelled server.  GENERATED by tools/gen_state.py (records and setters only).

    Memory model: CLIENT structures live in a heap ([s_heap], handle -> structure) and are
    linked into the list My_Clients ([s_clients]); freeing a structure removes it from the heap,
    so that using a stale handle is a distinct outcome ([Bad Dangling], see Monad.v). CHANNEL and
    CL2CHAN structures are unlinked and freed in one step and are kept in lists.
    Handle 0 is This_Server. *)
From Coq Require Import List Ascii String ZArith NArith Bool.
From Verif Require Import Bytes Lists.
Import ListNotations.

(** src/ngircd/client.h:20-33 (CLIENT_xxx); CLIENT_ANY is only used as a mask. *)
Inductive ctype :=
| T_UNKNOWN | T_GOTPASS | T_GOTNICK | T_GOTUSER | T_USER | T_SERVER | T_SERVICE
| T_UNKNOWNSERVER | T_GOTPASS_2813 | T_WAITAUTHPING | T_WAITCAPEND.

Definition ctype_eqb (a b : ctype) : bool :=
  match a, b with
  | T_UNKNOWN, T_UNKNOWN | T_GOTPASS, T_GOTPASS | T_GOTNICK, T_GOTNICK | T_GOTUSER, T_GOTUSER
  | T_USER, T_USER | T_SERVER, T_SERVER | T_SERVICE, T_SERVICE
  | T_UNKNOWNSERVER, T_UNKNOWNSERVER | T_GOTPASS_2813, T_GOTPASS_2813
  | T_WAITAUTHPING, T_WAITAUTHPING | T_WAITCAPEND, T_WAITCAPEND => true
  | _, _ => false
  end.


Definition handle := nat.     (* CLIENT * *)
Definition chandle := nat.    (* CHANNEL * *)
Definition connid := nat.     (* CONN_ID > NONE *)

(** History variable (never read by the modelled code): actions of linked servers or operators after
    which ngIRCd itself does not keep its tables consistent.
    O_Member ch h: the client h was put on the channel ch although it is a server or not registered
    yet (channel.c:1042 Add_Client does not check this);
    O_Retype: an established server link was turned into an unregistered client
    (irc-login.c:256 with a prefix naming an unregistered client), or a peer that has registered as
    a server sent PASS again instead of finishing its registration (irc-login.c:82);
    O_Self: this server itself was removed (SQUIT with our own name from a peer);
    O_Chan ch: the channel ch was created by a CHANINFO command with a name that is not valid
    (irc-channel.c:690 does not check this);
    O_Modes ch: the modes of ch were set by a CHANINFO command which repeats a letter;
    O_Empty ch: the channel ch was created by a CHANINFO command, without members, or lost the mode
    "persistent" while it had no members. *)
Inductive oddity := O_Member (ch : chandle) (h : handle) | O_Retype | O_Self | O_Chan (ch : chandle) | O_Modes (ch : chandle) | O_Empty (ch : chandle).
'''
rec("client", "mkClient", "src/ngircd/client.h:41-71 struct _CLIENT (without orig_user: PAM is off). Capabilities: src/ngircd/client-cap.h", [
 ("cl_starttime", "Z"), ("cl_id", "bytes"), ("cl_hash", "N"), ("cl_type", "ctype"),
 ("cl_conn", "option connid"), ("cl_introducer", "option handle"), ("cl_topserver", "option handle"),
 ("cl_host", "bytes"), ("cl_cloaked", "option bytes"), ("cl_ipa", "option bytes"), ("cl_user", "bytes"),
 ("cl_info", "bytes"), ("cl_modes", "bytes"), ("cl_hops", "Z"), ("cl_token", "Z"), ("cl_mytoken", "Z"),
 ("cl_away", "option bytes"), ("cl_flags", "bytes"), ("cl_account", "option bytes"),
 ("cl_cap_pending", "bool"), ("cl_cap_multi", "bool")])
rec("channel", "mkChannel", "src/ngircd/channel.h:26-44 struct _CHANNEL", [
 ("ch_name", "bytes"), ("ch_hash", "N"), ("ch_modes", "bytes"), ("ch_topic", "bytes"),
 ("ch_ctime", "Z"), ("ch_topic_time", "Z"), ("ch_topic_who", "bytes"), ("ch_key", "bytes"),
 ("ch_maxusers", "Z"), ("ch_bans", "mlist"), ("ch_excepts", "mlist"), ("ch_invites", "mlist"), ("ch_keyfile", "bytes")])
rec("member", "mkMember", "src/ngircd/channel.h:46-52 struct _CLIENT2CHAN", [
 ("mb_client", "handle"), ("mb_chan", "chandle"), ("mb_modes", "bytes")])
rec("conn", "mkConn", "src/ngircd/conn.h:74-107 struct _Connection. co_open: sock > NONE; the option bits CONN_ISCLOSING, CONN_ISCONNECTING and CONN_RFC1459 are booleans; the write buffer is replaced by the output log s_out (see DESIGN.md)", [
 ("co_open", "bool"), ("co_ip", "bytes"), ("co_host", "bytes"), ("co_pwd", "option bytes"), ("co_rbuf", "bytes"),
 ("co_signon", "Z"), ("co_lastdata", "Z"), ("co_lastping", "Z"), ("co_lastprivmsg", "Z"), ("co_delaytime", "Z"),
 ("co_bytes_in", "Z"), ("co_bytes_out", "Z"), ("co_msg_in", "Z"), ("co_msg_out", "Z"),
 ("co_flag", "nat"), ("co_closing", "bool"), ("co_connecting", "bool"), ("co_rfc1459", "bool"),
 ("co_bps", "Z"), ("co_client", "option handle"), ("co_auth_ping", "Z")])
rec("whowas", "mkWhowas", "src/ngircd/client.h:78-87 struct _WHOWAS", [
 ("ww_time", "Z"), ("ww_id", "bytes"), ("ww_host", "bytes"), ("ww_user", "bytes"), ("ww_info", "bytes"), ("ww_server", "bytes")])
rec("cserver", "mkCserver", "src/ngircd/conf.h:47-68 CONF_SERVER (resolver state, addresses and SSL settings not modelled)", [
 ("sv_host", "bytes"), ("sv_name", "bytes"), ("sv_pwd_in", "bytes"), ("sv_pwd_out", "bytes"), ("sv_port", "Z"),
 ("sv_group", "Z"), ("sv_lasttry", "Z"), ("sv_once", "bool"), ("sv_disabled", "bool"), ("sv_conn", "option connid"), ("sv_svs_mask", "bytes")])
rec("coper", "mkCoper", "src/ngircd/conf.h:36-40 struct Conf_Oper", [
 ("op_name", "bytes"), ("op_pwd", "bytes"), ("op_mask", "option bytes")])
rec("cchan", "mkCchan", "src/ngircd/conf.h:87-96 struct Conf_Channel", [
 ("cc_name", "bytes"), ("cc_modes", "list bytes"), ("cc_key", "bytes"), ("cc_topic", "bytes"), ("cc_keyfile", "bytes"), ("cc_autojoin", "bool"), ("cc_maxusers", "Z")])
rec("conf", "mkConf", "src/ngircd/conf.h:103-250: the configuration variables. cf_rtext: \\\"%.1f kb\\\" rendering of byte counters, cf_timestr: strftime() of the TIME command, cf_gmtime: creation time in the login numerics, cf_keyfile: lines of a channel key file; all four are external and arbitrary functions", [
 ("cf_servername", "bytes"), ("cf_serverinfo", "bytes"), ("cf_serverpwd", "bytes"), ("cf_admin1", "bytes"), ("cf_admin2", "bytes"), ("cf_adminmail", "bytes"),
 ("cf_network", "bytes"), ("cf_motd", "list bytes"), ("cf_help", "list bytes"),
 ("cf_pingtimeout", "Z"), ("cf_pongtimeout", "Z"), ("cf_connectretry", "Z"),
 ("cf_opers", "list coper"), ("cf_channels", "list cchan"), ("cf_chantypes", "bytes"),
 ("cf_opercanmode", "bool"), ("cf_operchanpautoop", "bool"), ("cf_operservermode", "bool"), ("cf_allowremoteoper", "bool"),
 ("cf_cloakhost", "bytes"), ("cf_cloakhostmodex", "bytes"), ("cf_cloaksalt", "bytes"), ("cf_cloakusertonick", "bool"),
 ("cf_moreprivacy", "bool"), ("cf_noticebefore", "bool"), ("cf_scrubctcp", "bool"), ("cf_defusermodes", "bytes"),
 ("cf_maxconn", "Z"), ("cf_maxjoins", "Z"), ("cf_maxconnip", "Z"), ("cf_maxnick", "nat"), ("cf_maxlist", "Z"), ("cf_maxpenalty", "Z"),
 ("cf_authping", "bool"), ("cf_hostname", "bytes"), ("cf_webircpwd", "bytes"), ("cf_dns", "bool"),
 ("cf_rtext", "Z -> bytes"), ("cf_timestr", "Z -> bytes"), ("cf_startdate", "bytes"), ("cf_keyfile", "bytes -> list bytes")])
rec("state", "mkState", "The global variables of the server. s_now: time(NULL); s_rnd: the value rand() delivers next (both set by the environment); s_out: everything written, newest first; s_odd: history variable, see above", [
 ("s_conf", "conf"), ("s_now", "Z"), ("s_rnd", "Z"),
 ("s_heap", "list (handle * client)"), ("s_clients", "list handle"), ("s_next", "handle"),
 ("s_chans", "list (chandle * channel)"), ("s_chnext", "chandle"), ("s_members", "list member"),
 ("s_conns", "list (connid * conn)"), ("s_numconn", "Z"), ("s_numconnmax", "Z"), ("s_accepted", "Z"),
 ("s_out", "list (connid * bytes)"), ("s_glines", "mlist"), ("s_klines", "mlist"), ("s_servers", "list cserver"),
 ("s_whowas", "list whowas"), ("s_lastww", "Z"), ("s_maxusers", "Z"), ("s_mymaxusers", "Z"),
 ("s_sigquit", "bool"), ("s_sigrestart", "bool"), ("s_sigrehash", "bool"), ("s_wcounter", "Z"), ("s_start", "Z"), ("s_odd", "list oddity")])
p = os.path.join(os.path.dirname(os.path.abspath(__file__)), '../rocq/theories/State.v')
open(p, 'w').write(HEAD + "\n" + "\n".join(out).replace('\\"', "'"))
