(** State of the modelled server.  GENERATED by tools/gen_state.py (records and setters only).

    Memory model: CLIENT structures live in a heap ([s_heap], handle -> structure) and are
    linked into the list My_Clients ([s_clients]); freeing a structure removes it from the heap,
    so that using a stale handle is a distinct outcome ([Bad Dangling], see Monad.v). CHANNEL and
    CL2CHAN structures are unlinked and freed in one step and are kept in lists.
    Handle 0 is This_Server. *)
From Coq Require Import List Ascii String ZArith NArith Bool.
From Verif Require Import Bytes Lists.
Import ListNotations.

(** src/ngircd/client.h:20-33 (CLIENT_xxx); CLIENT_ANY is only used as a mask. *)
Inductive ctype :=
| T_UNKNOWN | T_GOTPASS | T_GOTNICK | T_GOTUSER | T_USER | T_SERVER | T_SERVICE
| T_UNKNOWNSERVER | T_GOTPASS_2813 | T_WAITAUTHPING | T_WAITCAPEND.

Definition ctype_eqb (a b : ctype) : bool :=
  match a, b with
  | T_UNKNOWN, T_UNKNOWN | T_GOTPASS, T_GOTPASS | T_GOTNICK, T_GOTNICK | T_GOTUSER, T_GOTUSER
  | T_USER, T_USER | T_SERVER, T_SERVER | T_SERVICE, T_SERVICE
  | T_UNKNOWNSERVER, T_UNKNOWNSERVER | T_GOTPASS_2813, T_GOTPASS_2813
  | T_WAITAUTHPING, T_WAITAUTHPING | T_WAITCAPEND, T_WAITCAPEND => true
  | _, _ => false
  end.


Definition handle := nat.     (* CLIENT * *)
Definition chandle := nat.    (* CHANNEL * *)
Definition connid := nat.     (* CONN_ID > NONE *)

(** History variable (never read by the modelled code): actions of linked servers or operators after
    which ngIRCd itself does not keep its tables consistent.
    O_Member ch h: the client h was put on the channel ch although it is a server or not registered
    yet (channel.c:1042 Add_Client does not check this);
    O_Retype: an established server link was turned into an unregistered client
    (irc-login.c:256 with a prefix naming an unregistered client), or a peer that has registered as
    a server sent PASS again instead of finishing its registration (irc-login.c:82);
    O_Self: this server itself was removed (SQUIT with our own name from a peer);
    O_Chan ch: the channel ch was created by a CHANINFO command with a name that is not valid
    (irc-channel.c:690 does not check this);
    O_Modes ch: the modes of ch were set by a CHANINFO command which repeats a letter;
    O_Empty ch: the channel ch was created by a CHANINFO command, without members, or lost the mode
    "persistent" while it had no members. *)
Inductive oddity := O_Member (ch : chandle) (h : handle) | O_Retype | O_Self | O_Chan (ch : chandle) | O_Modes (ch : chandle) | O_Empty (ch : chandle).

(** src/ngircd/client.h:41-71 struct _CLIENT (without orig_user: PAM is off). Capabilities: src/ngircd/client-cap.h *)
Record client := mkClient {
  cl_starttime : Z;
  cl_id : bytes;
  cl_hash : N;
  cl_type : ctype;
  cl_conn : option connid;
  cl_introducer : option handle;
  cl_topserver : option handle;
  cl_host : bytes;
  cl_cloaked : option bytes;
  cl_ipa : option bytes;
  cl_user : bytes;
  cl_info : bytes;
  cl_modes : bytes;
  cl_hops : Z;
  cl_token : Z;
  cl_mytoken : Z;
  cl_away : option bytes;
  cl_flags : bytes;
  cl_account : option bytes;
  cl_cap_pending : bool;
  cl_cap_multi : bool
}.

Definition set_cl_starttime (v : Z) (r : client) : client := mkClient v (cl_id r) (cl_hash r) (cl_type r) (cl_conn r) (cl_introducer r) (cl_topserver r) (cl_host r) (cl_cloaked r) (cl_ipa r) (cl_user r) (cl_info r) (cl_modes r) (cl_hops r) (cl_token r) (cl_mytoken r) (cl_away r) (cl_flags r) (cl_account r) (cl_cap_pending r) (cl_cap_multi r).
Definition set_cl_id (v : bytes) (r : client) : client := mkClient (cl_starttime r) v (cl_hash r) (cl_type r) (cl_conn r) (cl_introducer r) (cl_topserver r) (cl_host r) (cl_cloaked r) (cl_ipa r) (cl_user r) (cl_info r) (cl_modes r) (cl_hops r) (cl_token r) (cl_mytoken r) (cl_away r) (cl_flags r) (cl_account r) (cl_cap_pending r) (cl_cap_multi r).
Definition set_cl_hash (v : N) (r : client) : client := mkClient (cl_starttime r) (cl_id r) v (cl_type r) (cl_conn r) (cl_introducer r) (cl_topserver r) (cl_host r) (cl_cloaked r) (cl_ipa r) (cl_user r) (cl_info r) (cl_modes r) (cl_hops r) (cl_token r) (cl_mytoken r) (cl_away r) (cl_flags r) (cl_account r) (cl_cap_pending r) (cl_cap_multi r).
Definition set_cl_type (v : ctype) (r : client) : client := mkClient (cl_starttime r) (cl_id r) (cl_hash r) v (cl_conn r) (cl_introducer r) (cl_topserver r) (cl_host r) (cl_cloaked r) (cl_ipa r) (cl_user r) (cl_info r) (cl_modes r) (cl_hops r) (cl_token r) (cl_mytoken r) (cl_away r) (cl_flags r) (cl_account r) (cl_cap_pending r) (cl_cap_multi r).
Definition set_cl_conn (v : option connid) (r : client) : client := mkClient (cl_starttime r) (cl_id r) (cl_hash r) (cl_type r) v (cl_introducer r) (cl_topserver r) (cl_host r) (cl_cloaked r) (cl_ipa r) (cl_user r) (cl_info r) (cl_modes r) (cl_hops r) (cl_token r) (cl_mytoken r) (cl_away r) (cl_flags r) (cl_account r) (cl_cap_pending r) (cl_cap_multi r).
Definition set_cl_introducer (v : option handle) (r : client) : client := mkClient (cl_starttime r) (cl_id r) (cl_hash r) (cl_type r) (cl_conn r) v (cl_topserver r) (cl_host r) (cl_cloaked r) (cl_ipa r) (cl_user r) (cl_info r) (cl_modes r) (cl_hops r) (cl_token r) (cl_mytoken r) (cl_away r) (cl_flags r) (cl_account r) (cl_cap_pending r) (cl_cap_multi r).
Definition set_cl_topserver (v : option handle) (r : client) : client := mkClient (cl_starttime r) (cl_id r) (cl_hash r) (cl_type r) (cl_conn r) (cl_introducer r) v (cl_host r) (cl_cloaked r) (cl_ipa r) (cl_user r) (cl_info r) (cl_modes r) (cl_hops r) (cl_token r) (cl_mytoken r) (cl_away r) (cl_flags r) (cl_account r) (cl_cap_pending r) (cl_cap_multi r).
Definition set_cl_host (v : bytes) (r : client) : client := mkClient (cl_starttime r) (cl_id r) (cl_hash r) (cl_type r) (cl_conn r) (cl_introducer r) (cl_topserver r) v (cl_cloaked r) (cl_ipa r) (cl_user r) (cl_info r) (cl_modes r) (cl_hops r) (cl_token r) (cl_mytoken r) (cl_away r) (cl_flags r) (cl_account r) (cl_cap_pending r) (cl_cap_multi r).
Definition set_cl_cloaked (v : option bytes) (r : client) : client := mkClient (cl_starttime r) (cl_id r) (cl_hash r) (cl_type r) (cl_conn r) (cl_introducer r) (cl_topserver r) (cl_host r) v (cl_ipa r) (cl_user r) (cl_info r) (cl_modes r) (cl_hops r) (cl_token r) (cl_mytoken r) (cl_away r) (cl_flags r) (cl_account r) (cl_cap_pending r) (cl_cap_multi r).
Definition set_cl_ipa (v : option bytes) (r : client) : client := mkClient (cl_starttime r) (cl_id r) (cl_hash r) (cl_type r) (cl_conn r) (cl_introducer r) (cl_topserver r) (cl_host r) (cl_cloaked r) v (cl_user r) (cl_info r) (cl_modes r) (cl_hops r) (cl_token r) (cl_mytoken r) (cl_away r) (cl_flags r) (cl_account r) (cl_cap_pending r) (cl_cap_multi r).
Definition set_cl_user (v : bytes) (r : client) : client := mkClient (cl_starttime r) (cl_id r) (cl_hash r) (cl_type r) (cl_conn r) (cl_introducer r) (cl_topserver r) (cl_host r) (cl_cloaked r) (cl_ipa r) v (cl_info r) (cl_modes r) (cl_hops r) (cl_token r) (cl_mytoken r) (cl_away r) (cl_flags r) (cl_account r) (cl_cap_pending r) (cl_cap_multi r).
Definition set_cl_info (v : bytes) (r : client) : client := mkClient (cl_starttime r) (cl_id r) (cl_hash r) (cl_type r) (cl_conn r) (cl_introducer r) (cl_topserver r) (cl_host r) (cl_cloaked r) (cl_ipa r) (cl_user r) v (cl_modes r) (cl_hops r) (cl_token r) (cl_mytoken r) (cl_away r) (cl_flags r) (cl_account r) (cl_cap_pending r) (cl_cap_multi r).
Definition set_cl_modes (v : bytes) (r : client) : client := mkClient (cl_starttime r) (cl_id r) (cl_hash r) (cl_type r) (cl_conn r) (cl_introducer r) (cl_topserver r) (cl_host r) (cl_cloaked r) (cl_ipa r) (cl_user r) (cl_info r) v (cl_hops r) (cl_token r) (cl_mytoken r) (cl_away r) (cl_flags r) (cl_account r) (cl_cap_pending r) (cl_cap_multi r).
Definition set_cl_hops (v : Z) (r : client) : client := mkClient (cl_starttime r) (cl_id r) (cl_hash r) (cl_type r) (cl_conn r) (cl_introducer r) (cl_topserver r) (cl_host r) (cl_cloaked r) (cl_ipa r) (cl_user r) (cl_info r) (cl_modes r) v (cl_token r) (cl_mytoken r) (cl_away r) (cl_flags r) (cl_account r) (cl_cap_pending r) (cl_cap_multi r).
Definition set_cl_token (v : Z) (r : client) : client := mkClient (cl_starttime r) (cl_id r) (cl_hash r) (cl_type r) (cl_conn r) (cl_introducer r) (cl_topserver r) (cl_host r) (cl_cloaked r) (cl_ipa r) (cl_user r) (cl_info r) (cl_modes r) (cl_hops r) v (cl_mytoken r) (cl_away r) (cl_flags r) (cl_account r) (cl_cap_pending r) (cl_cap_multi r).
Definition set_cl_mytoken (v : Z) (r : client) : client := mkClient (cl_starttime r) (cl_id r) (cl_hash r) (cl_type r) (cl_conn r) (cl_introducer r) (cl_topserver r) (cl_host r) (cl_cloaked r) (cl_ipa r) (cl_user r) (cl_info r) (cl_modes r) (cl_hops r) (cl_token r) v (cl_away r) (cl_flags r) (cl_account r) (cl_cap_pending r) (cl_cap_multi r).
Definition set_cl_away (v : option bytes) (r : client) : client := mkClient (cl_starttime r) (cl_id r) (cl_hash r) (cl_type r) (cl_conn r) (cl_introducer r) (cl_topserver r) (cl_host r) (cl_cloaked r) (cl_ipa r) (cl_user r) (cl_info r) (cl_modes r) (cl_hops r) (cl_token r) (cl_mytoken r) v (cl_flags r) (cl_account r) (cl_cap_pending r) (cl_cap_multi r).
Definition set_cl_flags (v : bytes) (r : client) : client := mkClient (cl_starttime r) (cl_id r) (cl_hash r) (cl_type r) (cl_conn r) (cl_introducer r) (cl_topserver r) (cl_host r) (cl_cloaked r) (cl_ipa r) (cl_user r) (cl_info r) (cl_modes r) (cl_hops r) (cl_token r) (cl_mytoken r) (cl_away r) v (cl_account r) (cl_cap_pending r) (cl_cap_multi r).
Definition set_cl_account (v : option bytes) (r : client) : client := mkClient (cl_starttime r) (cl_id r) (cl_hash r) (cl_type r) (cl_conn r) (cl_introducer r) (cl_topserver r) (cl_host r) (cl_cloaked r) (cl_ipa r) (cl_user r) (cl_info r) (cl_modes r) (cl_hops r) (cl_token r) (cl_mytoken r) (cl_away r) (cl_flags r) v (cl_cap_pending r) (cl_cap_multi r).
Definition set_cl_cap_pending (v : bool) (r : client) : client := mkClient (cl_starttime r) (cl_id r) (cl_hash r) (cl_type r) (cl_conn r) (cl_introducer r) (cl_topserver r) (cl_host r) (cl_cloaked r) (cl_ipa r) (cl_user r) (cl_info r) (cl_modes r) (cl_hops r) (cl_token r) (cl_mytoken r) (cl_away r) (cl_flags r) (cl_account r) v (cl_cap_multi r).
Definition set_cl_cap_multi (v : bool) (r : client) : client := mkClient (cl_starttime r) (cl_id r) (cl_hash r) (cl_type r) (cl_conn r) (cl_introducer r) (cl_topserver r) (cl_host r) (cl_cloaked r) (cl_ipa r) (cl_user r) (cl_info r) (cl_modes r) (cl_hops r) (cl_token r) (cl_mytoken r) (cl_away r) (cl_flags r) (cl_account r) (cl_cap_pending r) v.

(** src/ngircd/channel.h:26-44 struct _CHANNEL *)
Record channel := mkChannel {
  ch_name : bytes;
  ch_hash : N;
  ch_modes : bytes;
  ch_topic : bytes;
  ch_ctime : Z;
  ch_topic_time : Z;
  ch_topic_who : bytes;
  ch_key : bytes;
  ch_maxusers : Z;
  ch_bans : mlist;
  ch_excepts : mlist;
  ch_invites : mlist;
  ch_keyfile : bytes
}.

Definition set_ch_name (v : bytes) (r : channel) : channel := mkChannel v (ch_hash r) (ch_modes r) (ch_topic r) (ch_ctime r) (ch_topic_time r) (ch_topic_who r) (ch_key r) (ch_maxusers r) (ch_bans r) (ch_excepts r) (ch_invites r) (ch_keyfile r).
Definition set_ch_hash (v : N) (r : channel) : channel := mkChannel (ch_name r) v (ch_modes r) (ch_topic r) (ch_ctime r) (ch_topic_time r) (ch_topic_who r) (ch_key r) (ch_maxusers r) (ch_bans r) (ch_excepts r) (ch_invites r) (ch_keyfile r).
Definition set_ch_modes (v : bytes) (r : channel) : channel := mkChannel (ch_name r) (ch_hash r) v (ch_topic r) (ch_ctime r) (ch_topic_time r) (ch_topic_who r) (ch_key r) (ch_maxusers r) (ch_bans r) (ch_excepts r) (ch_invites r) (ch_keyfile r).
Definition set_ch_topic (v : bytes) (r : channel) : channel := mkChannel (ch_name r) (ch_hash r) (ch_modes r) v (ch_ctime r) (ch_topic_time r) (ch_topic_who r) (ch_key r) (ch_maxusers r) (ch_bans r) (ch_excepts r) (ch_invites r) (ch_keyfile r).
Definition set_ch_ctime (v : Z) (r : channel) : channel := mkChannel (ch_name r) (ch_hash r) (ch_modes r) (ch_topic r) v (ch_topic_time r) (ch_topic_who r) (ch_key r) (ch_maxusers r) (ch_bans r) (ch_excepts r) (ch_invites r) (ch_keyfile r).
Definition set_ch_topic_time (v : Z) (r : channel) : channel := mkChannel (ch_name r) (ch_hash r) (ch_modes r) (ch_topic r) (ch_ctime r) v (ch_topic_who r) (ch_key r) (ch_maxusers r) (ch_bans r) (ch_excepts r) (ch_invites r) (ch_keyfile r).
Definition set_ch_topic_who (v : bytes) (r : channel) : channel := mkChannel (ch_name r) (ch_hash r) (ch_modes r) (ch_topic r) (ch_ctime r) (ch_topic_time r) v (ch_key r) (ch_maxusers r) (ch_bans r) (ch_excepts r) (ch_invites r) (ch_keyfile r).
Definition set_ch_key (v : bytes) (r : channel) : channel := mkChannel (ch_name r) (ch_hash r) (ch_modes r) (ch_topic r) (ch_ctime r) (ch_topic_time r) (ch_topic_who r) v (ch_maxusers r) (ch_bans r) (ch_excepts r) (ch_invites r) (ch_keyfile r).
Definition set_ch_maxusers (v : Z) (r : channel) : channel := mkChannel (ch_name r) (ch_hash r) (ch_modes r) (ch_topic r) (ch_ctime r) (ch_topic_time r) (ch_topic_who r) (ch_key r) v (ch_bans r) (ch_excepts r) (ch_invites r) (ch_keyfile r).
Definition set_ch_bans (v : mlist) (r : channel) : channel := mkChannel (ch_name r) (ch_hash r) (ch_modes r) (ch_topic r) (ch_ctime r) (ch_topic_time r) (ch_topic_who r) (ch_key r) (ch_maxusers r) v (ch_excepts r) (ch_invites r) (ch_keyfile r).
Definition set_ch_excepts (v : mlist) (r : channel) : channel := mkChannel (ch_name r) (ch_hash r) (ch_modes r) (ch_topic r) (ch_ctime r) (ch_topic_time r) (ch_topic_who r) (ch_key r) (ch_maxusers r) (ch_bans r) v (ch_invites r) (ch_keyfile r).
Definition set_ch_invites (v : mlist) (r : channel) : channel := mkChannel (ch_name r) (ch_hash r) (ch_modes r) (ch_topic r) (ch_ctime r) (ch_topic_time r) (ch_topic_who r) (ch_key r) (ch_maxusers r) (ch_bans r) (ch_excepts r) v (ch_keyfile r).
Definition set_ch_keyfile (v : bytes) (r : channel) : channel := mkChannel (ch_name r) (ch_hash r) (ch_modes r) (ch_topic r) (ch_ctime r) (ch_topic_time r) (ch_topic_who r) (ch_key r) (ch_maxusers r) (ch_bans r) (ch_excepts r) (ch_invites r) v.

(** src/ngircd/channel.h:46-52 struct _CLIENT2CHAN *)
Record member := mkMember {
  mb_client : handle;
  mb_chan : chandle;
  mb_modes : bytes
}.

Definition set_mb_client (v : handle) (r : member) : member := mkMember v (mb_chan r) (mb_modes r).
Definition set_mb_chan (v : chandle) (r : member) : member := mkMember (mb_client r) v (mb_modes r).
Definition set_mb_modes (v : bytes) (r : member) : member := mkMember (mb_client r) (mb_chan r) v.

(** src/ngircd/conn.h:74-107 struct _Connection. co_open: sock > NONE; the option bits CONN_ISCLOSING, CONN_ISCONNECTING and CONN_RFC1459 are booleans; the write buffer is replaced by the output log s_out (see DESIGN.md) *)
Record conn := mkConn {
  co_open : bool;
  co_ip : bytes;
  co_host : bytes;
  co_pwd : option bytes;
  co_rbuf : bytes;
  co_signon : Z;
  co_lastdata : Z;
  co_lastping : Z;
  co_lastprivmsg : Z;
  co_delaytime : Z;
  co_bytes_in : Z;
  co_bytes_out : Z;
  co_msg_in : Z;
  co_msg_out : Z;
  co_flag : nat;
  co_closing : bool;
  co_connecting : bool;
  co_rfc1459 : bool;
  co_bps : Z;
  co_client : option handle;
  co_auth_ping : Z
}.

Definition set_co_open (v : bool) (r : conn) : conn := mkConn v (co_ip r) (co_host r) (co_pwd r) (co_rbuf r) (co_signon r) (co_lastdata r) (co_lastping r) (co_lastprivmsg r) (co_delaytime r) (co_bytes_in r) (co_bytes_out r) (co_msg_in r) (co_msg_out r) (co_flag r) (co_closing r) (co_connecting r) (co_rfc1459 r) (co_bps r) (co_client r) (co_auth_ping r).
Definition set_co_ip (v : bytes) (r : conn) : conn := mkConn (co_open r) v (co_host r) (co_pwd r) (co_rbuf r) (co_signon r) (co_lastdata r) (co_lastping r) (co_lastprivmsg r) (co_delaytime r) (co_bytes_in r) (co_bytes_out r) (co_msg_in r) (co_msg_out r) (co_flag r) (co_closing r) (co_connecting r) (co_rfc1459 r) (co_bps r) (co_client r) (co_auth_ping r).
Definition set_co_host (v : bytes) (r : conn) : conn := mkConn (co_open r) (co_ip r) v (co_pwd r) (co_rbuf r) (co_signon r) (co_lastdata r) (co_lastping r) (co_lastprivmsg r) (co_delaytime r) (co_bytes_in r) (co_bytes_out r) (co_msg_in r) (co_msg_out r) (co_flag r) (co_closing r) (co_connecting r) (co_rfc1459 r) (co_bps r) (co_client r) (co_auth_ping r).
Definition set_co_pwd (v : option bytes) (r : conn) : conn := mkConn (co_open r) (co_ip r) (co_host r) v (co_rbuf r) (co_signon r) (co_lastdata r) (co_lastping r) (co_lastprivmsg r) (co_delaytime r) (co_bytes_in r) (co_bytes_out r) (co_msg_in r) (co_msg_out r) (co_flag r) (co_closing r) (co_connecting r) (co_rfc1459 r) (co_bps r) (co_client r) (co_auth_ping r).
Definition set_co_rbuf (v : bytes) (r : conn) : conn := mkConn (co_open r) (co_ip r) (co_host r) (co_pwd r) v (co_signon r) (co_lastdata r) (co_lastping r) (co_lastprivmsg r) (co_delaytime r) (co_bytes_in r) (co_bytes_out r) (co_msg_in r) (co_msg_out r) (co_flag r) (co_closing r) (co_connecting r) (co_rfc1459 r) (co_bps r) (co_client r) (co_auth_ping r).
Definition set_co_signon (v : Z) (r : conn) : conn := mkConn (co_open r) (co_ip r) (co_host r) (co_pwd r) (co_rbuf r) v (co_lastdata r) (co_lastping r) (co_lastprivmsg r) (co_delaytime r) (co_bytes_in r) (co_bytes_out r) (co_msg_in r) (co_msg_out r) (co_flag r) (co_closing r) (co_connecting r) (co_rfc1459 r) (co_bps r) (co_client r) (co_auth_ping r).
Definition set_co_lastdata (v : Z) (r : conn) : conn := mkConn (co_open r) (co_ip r) (co_host r) (co_pwd r) (co_rbuf r) (co_signon r) v (co_lastping r) (co_lastprivmsg r) (co_delaytime r) (co_bytes_in r) (co_bytes_out r) (co_msg_in r) (co_msg_out r) (co_flag r) (co_closing r) (co_connecting r) (co_rfc1459 r) (co_bps r) (co_client r) (co_auth_ping r).
Definition set_co_lastping (v : Z) (r : conn) : conn := mkConn (co_open r) (co_ip r) (co_host r) (co_pwd r) (co_rbuf r) (co_signon r) (co_lastdata r) v (co_lastprivmsg r) (co_delaytime r) (co_bytes_in r) (co_bytes_out r) (co_msg_in r) (co_msg_out r) (co_flag r) (co_closing r) (co_connecting r) (co_rfc1459 r) (co_bps r) (co_client r) (co_auth_ping r).
Definition set_co_lastprivmsg (v : Z) (r : conn) : conn := mkConn (co_open r) (co_ip r) (co_host r) (co_pwd r) (co_rbuf r) (co_signon r) (co_lastdata r) (co_lastping r) v (co_delaytime r) (co_bytes_in r) (co_bytes_out r) (co_msg_in r) (co_msg_out r) (co_flag r) (co_closing r) (co_connecting r) (co_rfc1459 r) (co_bps r) (co_client r) (co_auth_ping r).
Definition set_co_delaytime (v : Z) (r : conn) : conn := mkConn (co_open r) (co_ip r) (co_host r) (co_pwd r) (co_rbuf r) (co_signon r) (co_lastdata r) (co_lastping r) (co_lastprivmsg r) v (co_bytes_in r) (co_bytes_out r) (co_msg_in r) (co_msg_out r) (co_flag r) (co_closing r) (co_connecting r) (co_rfc1459 r) (co_bps r) (co_client r) (co_auth_ping r).
Definition set_co_bytes_in (v : Z) (r : conn) : conn := mkConn (co_open r) (co_ip r) (co_host r) (co_pwd r) (co_rbuf r) (co_signon r) (co_lastdata r) (co_lastping r) (co_lastprivmsg r) (co_delaytime r) v (co_bytes_out r) (co_msg_in r) (co_msg_out r) (co_flag r) (co_closing r) (co_connecting r) (co_rfc1459 r) (co_bps r) (co_client r) (co_auth_ping r).
Definition set_co_bytes_out (v : Z) (r : conn) : conn := mkConn (co_open r) (co_ip r) (co_host r) (co_pwd r) (co_rbuf r) (co_signon r) (co_lastdata r) (co_lastping r) (co_lastprivmsg r) (co_delaytime r) (co_bytes_in r) v (co_msg_in r) (co_msg_out r) (co_flag r) (co_closing r) (co_connecting r) (co_rfc1459 r) (co_bps r) (co_client r) (co_auth_ping r).
Definition set_co_msg_in (v : Z) (r : conn) : conn := mkConn (co_open r) (co_ip r) (co_host r) (co_pwd r) (co_rbuf r) (co_signon r) (co_lastdata r) (co_lastping r) (co_lastprivmsg r) (co_delaytime r) (co_bytes_in r) (co_bytes_out r) v (co_msg_out r) (co_flag r) (co_closing r) (co_connecting r) (co_rfc1459 r) (co_bps r) (co_client r) (co_auth_ping r).
Definition set_co_msg_out (v : Z) (r : conn) : conn := mkConn (co_open r) (co_ip r) (co_host r) (co_pwd r) (co_rbuf r) (co_signon r) (co_lastdata r) (co_lastping r) (co_lastprivmsg r) (co_delaytime r) (co_bytes_in r) (co_bytes_out r) (co_msg_in r) v (co_flag r) (co_closing r) (co_connecting r) (co_rfc1459 r) (co_bps r) (co_client r) (co_auth_ping r).
Definition set_co_flag (v : nat) (r : conn) : conn := mkConn (co_open r) (co_ip r) (co_host r) (co_pwd r) (co_rbuf r) (co_signon r) (co_lastdata r) (co_lastping r) (co_lastprivmsg r) (co_delaytime r) (co_bytes_in r) (co_bytes_out r) (co_msg_in r) (co_msg_out r) v (co_closing r) (co_connecting r) (co_rfc1459 r) (co_bps r) (co_client r) (co_auth_ping r).
Definition set_co_closing (v : bool) (r : conn) : conn := mkConn (co_open r) (co_ip r) (co_host r) (co_pwd r) (co_rbuf r) (co_signon r) (co_lastdata r) (co_lastping r) (co_lastprivmsg r) (co_delaytime r) (co_bytes_in r) (co_bytes_out r) (co_msg_in r) (co_msg_out r) (co_flag r) v (co_connecting r) (co_rfc1459 r) (co_bps r) (co_client r) (co_auth_ping r).
Definition set_co_connecting (v : bool) (r : conn) : conn := mkConn (co_open r) (co_ip r) (co_host r) (co_pwd r) (co_rbuf r) (co_signon r) (co_lastdata r) (co_lastping r) (co_lastprivmsg r) (co_delaytime r) (co_bytes_in r) (co_bytes_out r) (co_msg_in r) (co_msg_out r) (co_flag r) (co_closing r) v (co_rfc1459 r) (co_bps r) (co_client r) (co_auth_ping r).
Definition set_co_rfc1459 (v : bool) (r : conn) : conn := mkConn (co_open r) (co_ip r) (co_host r) (co_pwd r) (co_rbuf r) (co_signon r) (co_lastdata r) (co_lastping r) (co_lastprivmsg r) (co_delaytime r) (co_bytes_in r) (co_bytes_out r) (co_msg_in r) (co_msg_out r) (co_flag r) (co_closing r) (co_connecting r) v (co_bps r) (co_client r) (co_auth_ping r).
Definition set_co_bps (v : Z) (r : conn) : conn := mkConn (co_open r) (co_ip r) (co_host r) (co_pwd r) (co_rbuf r) (co_signon r) (co_lastdata r) (co_lastping r) (co_lastprivmsg r) (co_delaytime r) (co_bytes_in r) (co_bytes_out r) (co_msg_in r) (co_msg_out r) (co_flag r) (co_closing r) (co_connecting r) (co_rfc1459 r) v (co_client r) (co_auth_ping r).
Definition set_co_client (v : option handle) (r : conn) : conn := mkConn (co_open r) (co_ip r) (co_host r) (co_pwd r) (co_rbuf r) (co_signon r) (co_lastdata r) (co_lastping r) (co_lastprivmsg r) (co_delaytime r) (co_bytes_in r) (co_bytes_out r) (co_msg_in r) (co_msg_out r) (co_flag r) (co_closing r) (co_connecting r) (co_rfc1459 r) (co_bps r) v (co_auth_ping r).
Definition set_co_auth_ping (v : Z) (r : conn) : conn := mkConn (co_open r) (co_ip r) (co_host r) (co_pwd r) (co_rbuf r) (co_signon r) (co_lastdata r) (co_lastping r) (co_lastprivmsg r) (co_delaytime r) (co_bytes_in r) (co_bytes_out r) (co_msg_in r) (co_msg_out r) (co_flag r) (co_closing r) (co_connecting r) (co_rfc1459 r) (co_bps r) (co_client r) v.

(** src/ngircd/client.h:78-87 struct _WHOWAS *)
Record whowas := mkWhowas {
  ww_time : Z;
  ww_id : bytes;
  ww_host : bytes;
  ww_user : bytes;
  ww_info : bytes;
  ww_server : bytes
}.

Definition set_ww_time (v : Z) (r : whowas) : whowas := mkWhowas v (ww_id r) (ww_host r) (ww_user r) (ww_info r) (ww_server r).
Definition set_ww_id (v : bytes) (r : whowas) : whowas := mkWhowas (ww_time r) v (ww_host r) (ww_user r) (ww_info r) (ww_server r).
Definition set_ww_host (v : bytes) (r : whowas) : whowas := mkWhowas (ww_time r) (ww_id r) v (ww_user r) (ww_info r) (ww_server r).
Definition set_ww_user (v : bytes) (r : whowas) : whowas := mkWhowas (ww_time r) (ww_id r) (ww_host r) v (ww_info r) (ww_server r).
Definition set_ww_info (v : bytes) (r : whowas) : whowas := mkWhowas (ww_time r) (ww_id r) (ww_host r) (ww_user r) v (ww_server r).
Definition set_ww_server (v : bytes) (r : whowas) : whowas := mkWhowas (ww_time r) (ww_id r) (ww_host r) (ww_user r) (ww_info r) v.

(** src/ngircd/conf.h:47-68 CONF_SERVER (resolver state, addresses and SSL settings not modelled) *)
Record cserver := mkCserver {
  sv_host : bytes;
  sv_name : bytes;
  sv_pwd_in : bytes;
  sv_pwd_out : bytes;
  sv_port : Z;
  sv_group : Z;
  sv_lasttry : Z;
  sv_once : bool;
  sv_disabled : bool;
  sv_conn : option connid;
  sv_svs_mask : bytes
}.

Definition set_sv_host (v : bytes) (r : cserver) : cserver := mkCserver v (sv_name r) (sv_pwd_in r) (sv_pwd_out r) (sv_port r) (sv_group r) (sv_lasttry r) (sv_once r) (sv_disabled r) (sv_conn r) (sv_svs_mask r).
Definition set_sv_name (v : bytes) (r : cserver) : cserver := mkCserver (sv_host r) v (sv_pwd_in r) (sv_pwd_out r) (sv_port r) (sv_group r) (sv_lasttry r) (sv_once r) (sv_disabled r) (sv_conn r) (sv_svs_mask r).
Definition set_sv_pwd_in (v : bytes) (r : cserver) : cserver := mkCserver (sv_host r) (sv_name r) v (sv_pwd_out r) (sv_port r) (sv_group r) (sv_lasttry r) (sv_once r) (sv_disabled r) (sv_conn r) (sv_svs_mask r).
Definition set_sv_pwd_out (v : bytes) (r : cserver) : cserver := mkCserver (sv_host r) (sv_name r) (sv_pwd_in r) v (sv_port r) (sv_group r) (sv_lasttry r) (sv_once r) (sv_disabled r) (sv_conn r) (sv_svs_mask r).
Definition set_sv_port (v : Z) (r : cserver) : cserver := mkCserver (sv_host r) (sv_name r) (sv_pwd_in r) (sv_pwd_out r) v (sv_group r) (sv_lasttry r) (sv_once r) (sv_disabled r) (sv_conn r) (sv_svs_mask r).
Definition set_sv_group (v : Z) (r : cserver) : cserver := mkCserver (sv_host r) (sv_name r) (sv_pwd_in r) (sv_pwd_out r) (sv_port r) v (sv_lasttry r) (sv_once r) (sv_disabled r) (sv_conn r) (sv_svs_mask r).
Definition set_sv_lasttry (v : Z) (r : cserver) : cserver := mkCserver (sv_host r) (sv_name r) (sv_pwd_in r) (sv_pwd_out r) (sv_port r) (sv_group r) v (sv_once r) (sv_disabled r) (sv_conn r) (sv_svs_mask r).
Definition set_sv_once (v : bool) (r : cserver) : cserver := mkCserver (sv_host r) (sv_name r) (sv_pwd_in r) (sv_pwd_out r) (sv_port r) (sv_group r) (sv_lasttry r) v (sv_disabled r) (sv_conn r) (sv_svs_mask r).
Definition set_sv_disabled (v : bool) (r : cserver) : cserver := mkCserver (sv_host r) (sv_name r) (sv_pwd_in r) (sv_pwd_out r) (sv_port r) (sv_group r) (sv_lasttry r) (sv_once r) v (sv_conn r) (sv_svs_mask r).
Definition set_sv_conn (v : option connid) (r : cserver) : cserver := mkCserver (sv_host r) (sv_name r) (sv_pwd_in r) (sv_pwd_out r) (sv_port r) (sv_group r) (sv_lasttry r) (sv_once r) (sv_disabled r) v (sv_svs_mask r).
Definition set_sv_svs_mask (v : bytes) (r : cserver) : cserver := mkCserver (sv_host r) (sv_name r) (sv_pwd_in r) (sv_pwd_out r) (sv_port r) (sv_group r) (sv_lasttry r) (sv_once r) (sv_disabled r) (sv_conn r) v.

(** src/ngircd/conf.h:36-40 struct Conf_Oper *)
Record coper := mkCoper {
  op_name : bytes;
  op_pwd : bytes;
  op_mask : option bytes
}.

Definition set_op_name (v : bytes) (r : coper) : coper := mkCoper v (op_pwd r) (op_mask r).
Definition set_op_pwd (v : bytes) (r : coper) : coper := mkCoper (op_name r) v (op_mask r).
Definition set_op_mask (v : option bytes) (r : coper) : coper := mkCoper (op_name r) (op_pwd r) v.

(** src/ngircd/conf.h:87-96 struct Conf_Channel *)
Record cchan := mkCchan {
  cc_name : bytes;
  cc_modes : list bytes;
  cc_key : bytes;
  cc_topic : bytes;
  cc_keyfile : bytes;
  cc_autojoin : bool;
  cc_maxusers : Z
}.

Definition set_cc_name (v : bytes) (r : cchan) : cchan := mkCchan v (cc_modes r) (cc_key r) (cc_topic r) (cc_keyfile r) (cc_autojoin r) (cc_maxusers r).
Definition set_cc_modes (v : list bytes) (r : cchan) : cchan := mkCchan (cc_name r) v (cc_key r) (cc_topic r) (cc_keyfile r) (cc_autojoin r) (cc_maxusers r).
Definition set_cc_key (v : bytes) (r : cchan) : cchan := mkCchan (cc_name r) (cc_modes r) v (cc_topic r) (cc_keyfile r) (cc_autojoin r) (cc_maxusers r).
Definition set_cc_topic (v : bytes) (r : cchan) : cchan := mkCchan (cc_name r) (cc_modes r) (cc_key r) v (cc_keyfile r) (cc_autojoin r) (cc_maxusers r).
Definition set_cc_keyfile (v : bytes) (r : cchan) : cchan := mkCchan (cc_name r) (cc_modes r) (cc_key r) (cc_topic r) v (cc_autojoin r) (cc_maxusers r).
Definition set_cc_autojoin (v : bool) (r : cchan) : cchan := mkCchan (cc_name r) (cc_modes r) (cc_key r) (cc_topic r) (cc_keyfile r) v (cc_maxusers r).
Definition set_cc_maxusers (v : Z) (r : cchan) : cchan := mkCchan (cc_name r) (cc_modes r) (cc_key r) (cc_topic r) (cc_keyfile r) (cc_autojoin r) v.

(** src/ngircd/conf.h:103-250: the configuration variables. cf_rtext: '%.1f kb' rendering of byte counters, cf_timestr: strftime() of the TIME command, cf_gmtime: creation time in the login numerics, cf_keyfile: lines of a channel key file; all four are external and arbitrary functions *)
Record conf := mkConf {
  cf_servername : bytes;
  cf_serverinfo : bytes;
  cf_serverpwd : bytes;
  cf_admin1 : bytes;
  cf_admin2 : bytes;
  cf_adminmail : bytes;
  cf_network : bytes;
  cf_motd : list bytes;
  cf_help : list bytes;
  cf_pingtimeout : Z;
  cf_pongtimeout : Z;
  cf_connectretry : Z;
  cf_opers : list coper;
  cf_channels : list cchan;
  cf_chantypes : bytes;
  cf_opercanmode : bool;
  cf_operchanpautoop : bool;
  cf_operservermode : bool;
  cf_allowremoteoper : bool;
  cf_cloakhost : bytes;
  cf_cloakhostmodex : bytes;
  cf_cloaksalt : bytes;
  cf_cloakusertonick : bool;
  cf_moreprivacy : bool;
  cf_noticebefore : bool;
  cf_scrubctcp : bool;
  cf_defusermodes : bytes;
  cf_maxconn : Z;
  cf_maxjoins : Z;
  cf_maxconnip : Z;
  cf_maxnick : nat;
  cf_maxlist : Z;
  cf_maxpenalty : Z;
  cf_authping : bool;
  cf_hostname : bytes;
  cf_webircpwd : bytes;
  cf_dns : bool;
  cf_rtext : Z -> bytes;
  cf_timestr : Z -> bytes;
  cf_startdate : bytes;
  cf_keyfile : bytes -> list bytes
}.

Definition set_cf_servername (v : bytes) (r : conf) : conf := mkConf v (cf_serverinfo r) (cf_serverpwd r) (cf_admin1 r) (cf_admin2 r) (cf_adminmail r) (cf_network r) (cf_motd r) (cf_help r) (cf_pingtimeout r) (cf_pongtimeout r) (cf_connectretry r) (cf_opers r) (cf_channels r) (cf_chantypes r) (cf_opercanmode r) (cf_operchanpautoop r) (cf_operservermode r) (cf_allowremoteoper r) (cf_cloakhost r) (cf_cloakhostmodex r) (cf_cloaksalt r) (cf_cloakusertonick r) (cf_moreprivacy r) (cf_noticebefore r) (cf_scrubctcp r) (cf_defusermodes r) (cf_maxconn r) (cf_maxjoins r) (cf_maxconnip r) (cf_maxnick r) (cf_maxlist r) (cf_maxpenalty r) (cf_authping r) (cf_hostname r) (cf_webircpwd r) (cf_dns r) (cf_rtext r) (cf_timestr r) (cf_startdate r) (cf_keyfile r).
Definition set_cf_serverinfo (v : bytes) (r : conf) : conf := mkConf (cf_servername r) v (cf_serverpwd r) (cf_admin1 r) (cf_admin2 r) (cf_adminmail r) (cf_network r) (cf_motd r) (cf_help r) (cf_pingtimeout r) (cf_pongtimeout r) (cf_connectretry r) (cf_opers r) (cf_channels r) (cf_chantypes r) (cf_opercanmode r) (cf_operchanpautoop r) (cf_operservermode r) (cf_allowremoteoper r) (cf_cloakhost r) (cf_cloakhostmodex r) (cf_cloaksalt r) (cf_cloakusertonick r) (cf_moreprivacy r) (cf_noticebefore r) (cf_scrubctcp r) (cf_defusermodes r) (cf_maxconn r) (cf_maxjoins r) (cf_maxconnip r) (cf_maxnick r) (cf_maxlist r) (cf_maxpenalty r) (cf_authping r) (cf_hostname r) (cf_webircpwd r) (cf_dns r) (cf_rtext r) (cf_timestr r) (cf_startdate r) (cf_keyfile r).
Definition set_cf_serverpwd (v : bytes) (r : conf) : conf := mkConf (cf_servername r) (cf_serverinfo r) v (cf_admin1 r) (cf_admin2 r) (cf_adminmail r) (cf_network r) (cf_motd r) (cf_help r) (cf_pingtimeout r) (cf_pongtimeout r) (cf_connectretry r) (cf_opers r) (cf_channels r) (cf_chantypes r) (cf_opercanmode r) (cf_operchanpautoop r) (cf_operservermode r) (cf_allowremoteoper r) (cf_cloakhost r) (cf_cloakhostmodex r) (cf_cloaksalt r) (cf_cloakusertonick r) (cf_moreprivacy r) (cf_noticebefore r) (cf_scrubctcp r) (cf_defusermodes r) (cf_maxconn r) (cf_maxjoins r) (cf_maxconnip r) (cf_maxnick r) (cf_maxlist r) (cf_maxpenalty r) (cf_authping r) (cf_hostname r) (cf_webircpwd r) (cf_dns r) (cf_rtext r) (cf_timestr r) (cf_startdate r) (cf_keyfile r).
Definition set_cf_admin1 (v : bytes) (r : conf) : conf := mkConf (cf_servername r) (cf_serverinfo r) (cf_serverpwd r) v (cf_admin2 r) (cf_adminmail r) (cf_network r) (cf_motd r) (cf_help r) (cf_pingtimeout r) (cf_pongtimeout r) (cf_connectretry r) (cf_opers r) (cf_channels r) (cf_chantypes r) (cf_opercanmode r) (cf_operchanpautoop r) (cf_operservermode r) (cf_allowremoteoper r) (cf_cloakhost r) (cf_cloakhostmodex r) (cf_cloaksalt r) (cf_cloakusertonick r) (cf_moreprivacy r) (cf_noticebefore r) (cf_scrubctcp r) (cf_defusermodes r) (cf_maxconn r) (cf_maxjoins r) (cf_maxconnip r) (cf_maxnick r) (cf_maxlist r) (cf_maxpenalty r) (cf_authping r) (cf_hostname r) (cf_webircpwd r) (cf_dns r) (cf_rtext r) (cf_timestr r) (cf_startdate r) (cf_keyfile r).
Definition set_cf_admin2 (v : bytes) (r : conf) : conf := mkConf (cf_servername r) (cf_serverinfo r) (cf_serverpwd r) (cf_admin1 r) v (cf_adminmail r) (cf_network r) (cf_motd r) (cf_help r) (cf_pingtimeout r) (cf_pongtimeout r) (cf_connectretry r) (cf_opers r) (cf_channels r) (cf_chantypes r) (cf_opercanmode r) (cf_operchanpautoop r) (cf_operservermode r) (cf_allowremoteoper r) (cf_cloakhost r) (cf_cloakhostmodex r) (cf_cloaksalt r) (cf_cloakusertonick r) (cf_moreprivacy r) (cf_noticebefore r) (cf_scrubctcp r) (cf_defusermodes r) (cf_maxconn r) (cf_maxjoins r) (cf_maxconnip r) (cf_maxnick r) (cf_maxlist r) (cf_maxpenalty r) (cf_authping r) (cf_hostname r) (cf_webircpwd r) (cf_dns r) (cf_rtext r) (cf_timestr r) (cf_startdate r) (cf_keyfile r).
Definition set_cf_adminmail (v : bytes) (r : conf) : conf := mkConf (cf_servername r) (cf_serverinfo r) (cf_serverpwd r) (cf_admin1 r) (cf_admin2 r) v (cf_network r) (cf_motd r) (cf_help r) (cf_pingtimeout r) (cf_pongtimeout r) (cf_connectretry r) (cf_opers r) (cf_channels r) (cf_chantypes r) (cf_opercanmode r) (cf_operchanpautoop r) (cf_operservermode r) (cf_allowremoteoper r) (cf_cloakhost r) (cf_cloakhostmodex r) (cf_cloaksalt r) (cf_cloakusertonick r) (cf_moreprivacy r) (cf_noticebefore r) (cf_scrubctcp r) (cf_defusermodes r) (cf_maxconn r) (cf_maxjoins r) (cf_maxconnip r) (cf_maxnick r) (cf_maxlist r) (cf_maxpenalty r) (cf_authping r) (cf_hostname r) (cf_webircpwd r) (cf_dns r) (cf_rtext r) (cf_timestr r) (cf_startdate r) (cf_keyfile r).
Definition set_cf_network (v : bytes) (r : conf) : conf := mkConf (cf_servername r) (cf_serverinfo r) (cf_serverpwd r) (cf_admin1 r) (cf_admin2 r) (cf_adminmail r) v (cf_motd r) (cf_help r) (cf_pingtimeout r) (cf_pongtimeout r) (cf_connectretry r) (cf_opers r) (cf_channels r) (cf_chantypes r) (cf_opercanmode r) (cf_operchanpautoop r) (cf_operservermode r) (cf_allowremoteoper r) (cf_cloakhost r) (cf_cloakhostmodex r) (cf_cloaksalt r) (cf_cloakusertonick r) (cf_moreprivacy r) (cf_noticebefore r) (cf_scrubctcp r) (cf_defusermodes r) (cf_maxconn r) (cf_maxjoins r) (cf_maxconnip r) (cf_maxnick r) (cf_maxlist r) (cf_maxpenalty r) (cf_authping r) (cf_hostname r) (cf_webircpwd r) (cf_dns r) (cf_rtext r) (cf_timestr r) (cf_startdate r) (cf_keyfile r).
Definition set_cf_motd (v : list bytes) (r : conf) : conf := mkConf (cf_servername r) (cf_serverinfo r) (cf_serverpwd r) (cf_admin1 r) (cf_admin2 r) (cf_adminmail r) (cf_network r) v (cf_help r) (cf_pingtimeout r) (cf_pongtimeout r) (cf_connectretry r) (cf_opers r) (cf_channels r) (cf_chantypes r) (cf_opercanmode r) (cf_operchanpautoop r) (cf_operservermode r) (cf_allowremoteoper r) (cf_cloakhost r) (cf_cloakhostmodex r) (cf_cloaksalt r) (cf_cloakusertonick r) (cf_moreprivacy r) (cf_noticebefore r) (cf_scrubctcp r) (cf_defusermodes r) (cf_maxconn r) (cf_maxjoins r) (cf_maxconnip r) (cf_maxnick r) (cf_maxlist r) (cf_maxpenalty r) (cf_authping r) (cf_hostname r) (cf_webircpwd r) (cf_dns r) (cf_rtext r) (cf_timestr r) (cf_startdate r) (cf_keyfile r).
Definition set_cf_help (v : list bytes) (r : conf) : conf := mkConf (cf_servername r) (cf_serverinfo r) (cf_serverpwd r) (cf_admin1 r) (cf_admin2 r) (cf_adminmail r) (cf_network r) (cf_motd r) v (cf_pingtimeout r) (cf_pongtimeout r) (cf_connectretry r) (cf_opers r) (cf_channels r) (cf_chantypes r) (cf_opercanmode r) (cf_operchanpautoop r) (cf_operservermode r) (cf_allowremoteoper r) (cf_cloakhost r) (cf_cloakhostmodex r) (cf_cloaksalt r) (cf_cloakusertonick r) (cf_moreprivacy r) (cf_noticebefore r) (cf_scrubctcp r) (cf_defusermodes r) (cf_maxconn r) (cf_maxjoins r) (cf_maxconnip r) (cf_maxnick r) (cf_maxlist r) (cf_maxpenalty r) (cf_authping r) (cf_hostname r) (cf_webircpwd r) (cf_dns r) (cf_rtext r) (cf_timestr r) (cf_startdate r) (cf_keyfile r).
Definition set_cf_pingtimeout (v : Z) (r : conf) : conf := mkConf (cf_servername r) (cf_serverinfo r) (cf_serverpwd r) (cf_admin1 r) (cf_admin2 r) (cf_adminmail r) (cf_network r) (cf_motd r) (cf_help r) v (cf_pongtimeout r) (cf_connectretry r) (cf_opers r) (cf_channels r) (cf_chantypes r) (cf_opercanmode r) (cf_operchanpautoop r) (cf_operservermode r) (cf_allowremoteoper r) (cf_cloakhost r) (cf_cloakhostmodex r) (cf_cloaksalt r) (cf_cloakusertonick r) (cf_moreprivacy r) (cf_noticebefore r) (cf_scrubctcp r) (cf_defusermodes r) (cf_maxconn r) (cf_maxjoins r) (cf_maxconnip r) (cf_maxnick r) (cf_maxlist r) (cf_maxpenalty r) (cf_authping r) (cf_hostname r) (cf_webircpwd r) (cf_dns r) (cf_rtext r) (cf_timestr r) (cf_startdate r) (cf_keyfile r).
Definition set_cf_pongtimeout (v : Z) (r : conf) : conf := mkConf (cf_servername r) (cf_serverinfo r) (cf_serverpwd r) (cf_admin1 r) (cf_admin2 r) (cf_adminmail r) (cf_network r) (cf_motd r) (cf_help r) (cf_pingtimeout r) v (cf_connectretry r) (cf_opers r) (cf_channels r) (cf_chantypes r) (cf_opercanmode r) (cf_operchanpautoop r) (cf_operservermode r) (cf_allowremoteoper r) (cf_cloakhost r) (cf_cloakhostmodex r) (cf_cloaksalt r) (cf_cloakusertonick r) (cf_moreprivacy r) (cf_noticebefore r) (cf_scrubctcp r) (cf_defusermodes r) (cf_maxconn r) (cf_maxjoins r) (cf_maxconnip r) (cf_maxnick r) (cf_maxlist r) (cf_maxpenalty r) (cf_authping r) (cf_hostname r) (cf_webircpwd r) (cf_dns r) (cf_rtext r) (cf_timestr r) (cf_startdate r) (cf_keyfile r).
Definition set_cf_connectretry (v : Z) (r : conf) : conf := mkConf (cf_servername r) (cf_serverinfo r) (cf_serverpwd r) (cf_admin1 r) (cf_admin2 r) (cf_adminmail r) (cf_network r) (cf_motd r) (cf_help r) (cf_pingtimeout r) (cf_pongtimeout r) v (cf_opers r) (cf_channels r) (cf_chantypes r) (cf_opercanmode r) (cf_operchanpautoop r) (cf_operservermode r) (cf_allowremoteoper r) (cf_cloakhost r) (cf_cloakhostmodex r) (cf_cloaksalt r) (cf_cloakusertonick r) (cf_moreprivacy r) (cf_noticebefore r) (cf_scrubctcp r) (cf_defusermodes r) (cf_maxconn r) (cf_maxjoins r) (cf_maxconnip r) (cf_maxnick r) (cf_maxlist r) (cf_maxpenalty r) (cf_authping r) (cf_hostname r) (cf_webircpwd r) (cf_dns r) (cf_rtext r) (cf_timestr r) (cf_startdate r) (cf_keyfile r).
Definition set_cf_opers (v : list coper) (r : conf) : conf := mkConf (cf_servername r) (cf_serverinfo r) (cf_serverpwd r) (cf_admin1 r) (cf_admin2 r) (cf_adminmail r) (cf_network r) (cf_motd r) (cf_help r) (cf_pingtimeout r) (cf_pongtimeout r) (cf_connectretry r) v (cf_channels r) (cf_chantypes r) (cf_opercanmode r) (cf_operchanpautoop r) (cf_operservermode r) (cf_allowremoteoper r) (cf_cloakhost r) (cf_cloakhostmodex r) (cf_cloaksalt r) (cf_cloakusertonick r) (cf_moreprivacy r) (cf_noticebefore r) (cf_scrubctcp r) (cf_defusermodes r) (cf_maxconn r) (cf_maxjoins r) (cf_maxconnip r) (cf_maxnick r) (cf_maxlist r) (cf_maxpenalty r) (cf_authping r) (cf_hostname r) (cf_webircpwd r) (cf_dns r) (cf_rtext r) (cf_timestr r) (cf_startdate r) (cf_keyfile r).
Definition set_cf_channels (v : list cchan) (r : conf) : conf := mkConf (cf_servername r) (cf_serverinfo r) (cf_serverpwd r) (cf_admin1 r) (cf_admin2 r) (cf_adminmail r) (cf_network r) (cf_motd r) (cf_help r) (cf_pingtimeout r) (cf_pongtimeout r) (cf_connectretry r) (cf_opers r) v (cf_chantypes r) (cf_opercanmode r) (cf_operchanpautoop r) (cf_operservermode r) (cf_allowremoteoper r) (cf_cloakhost r) (cf_cloakhostmodex r) (cf_cloaksalt r) (cf_cloakusertonick r) (cf_moreprivacy r) (cf_noticebefore r) (cf_scrubctcp r) (cf_defusermodes r) (cf_maxconn r) (cf_maxjoins r) (cf_maxconnip r) (cf_maxnick r) (cf_maxlist r) (cf_maxpenalty r) (cf_authping r) (cf_hostname r) (cf_webircpwd r) (cf_dns r) (cf_rtext r) (cf_timestr r) (cf_startdate r) (cf_keyfile r).
Definition set_cf_chantypes (v : bytes) (r : conf) : conf := mkConf (cf_servername r) (cf_serverinfo r) (cf_serverpwd r) (cf_admin1 r) (cf_admin2 r) (cf_adminmail r) (cf_network r) (cf_motd r) (cf_help r) (cf_pingtimeout r) (cf_pongtimeout r) (cf_connectretry r) (cf_opers r) (cf_channels r) v (cf_opercanmode r) (cf_operchanpautoop r) (cf_operservermode r) (cf_allowremoteoper r) (cf_cloakhost r) (cf_cloakhostmodex r) (cf_cloaksalt r) (cf_cloakusertonick r) (cf_moreprivacy r) (cf_noticebefore r) (cf_scrubctcp r) (cf_defusermodes r) (cf_maxconn r) (cf_maxjoins r) (cf_maxconnip r) (cf_maxnick r) (cf_maxlist r) (cf_maxpenalty r) (cf_authping r) (cf_hostname r) (cf_webircpwd r) (cf_dns r) (cf_rtext r) (cf_timestr r) (cf_startdate r) (cf_keyfile r).
Definition set_cf_opercanmode (v : bool) (r : conf) : conf := mkConf (cf_servername r) (cf_serverinfo r) (cf_serverpwd r) (cf_admin1 r) (cf_admin2 r) (cf_adminmail r) (cf_network r) (cf_motd r) (cf_help r) (cf_pingtimeout r) (cf_pongtimeout r) (cf_connectretry r) (cf_opers r) (cf_channels r) (cf_chantypes r) v (cf_operchanpautoop r) (cf_operservermode r) (cf_allowremoteoper r) (cf_cloakhost r) (cf_cloakhostmodex r) (cf_cloaksalt r) (cf_cloakusertonick r) (cf_moreprivacy r) (cf_noticebefore r) (cf_scrubctcp r) (cf_defusermodes r) (cf_maxconn r) (cf_maxjoins r) (cf_maxconnip r) (cf_maxnick r) (cf_maxlist r) (cf_maxpenalty r) (cf_authping r) (cf_hostname r) (cf_webircpwd r) (cf_dns r) (cf_rtext r) (cf_timestr r) (cf_startdate r) (cf_keyfile r).
Definition set_cf_operchanpautoop (v : bool) (r : conf) : conf := mkConf (cf_servername r) (cf_serverinfo r) (cf_serverpwd r) (cf_admin1 r) (cf_admin2 r) (cf_adminmail r) (cf_network r) (cf_motd r) (cf_help r) (cf_pingtimeout r) (cf_pongtimeout r) (cf_connectretry r) (cf_opers r) (cf_channels r) (cf_chantypes r) (cf_opercanmode r) v (cf_operservermode r) (cf_allowremoteoper r) (cf_cloakhost r) (cf_cloakhostmodex r) (cf_cloaksalt r) (cf_cloakusertonick r) (cf_moreprivacy r) (cf_noticebefore r) (cf_scrubctcp r) (cf_defusermodes r) (cf_maxconn r) (cf_maxjoins r) (cf_maxconnip r) (cf_maxnick r) (cf_maxlist r) (cf_maxpenalty r) (cf_authping r) (cf_hostname r) (cf_webircpwd r) (cf_dns r) (cf_rtext r) (cf_timestr r) (cf_startdate r) (cf_keyfile r).
Definition set_cf_operservermode (v : bool) (r : conf) : conf := mkConf (cf_servername r) (cf_serverinfo r) (cf_serverpwd r) (cf_admin1 r) (cf_admin2 r) (cf_adminmail r) (cf_network r) (cf_motd r) (cf_help r) (cf_pingtimeout r) (cf_pongtimeout r) (cf_connectretry r) (cf_opers r) (cf_channels r) (cf_chantypes r) (cf_opercanmode r) (cf_operchanpautoop r) v (cf_allowremoteoper r) (cf_cloakhost r) (cf_cloakhostmodex r) (cf_cloaksalt r) (cf_cloakusertonick r) (cf_moreprivacy r) (cf_noticebefore r) (cf_scrubctcp r) (cf_defusermodes r) (cf_maxconn r) (cf_maxjoins r) (cf_maxconnip r) (cf_maxnick r) (cf_maxlist r) (cf_maxpenalty r) (cf_authping r) (cf_hostname r) (cf_webircpwd r) (cf_dns r) (cf_rtext r) (cf_timestr r) (cf_startdate r) (cf_keyfile r).
Definition set_cf_allowremoteoper (v : bool) (r : conf) : conf := mkConf (cf_servername r) (cf_serverinfo r) (cf_serverpwd r) (cf_admin1 r) (cf_admin2 r) (cf_adminmail r) (cf_network r) (cf_motd r) (cf_help r) (cf_pingtimeout r) (cf_pongtimeout r) (cf_connectretry r) (cf_opers r) (cf_channels r) (cf_chantypes r) (cf_opercanmode r) (cf_operchanpautoop r) (cf_operservermode r) v (cf_cloakhost r) (cf_cloakhostmodex r) (cf_cloaksalt r) (cf_cloakusertonick r) (cf_moreprivacy r) (cf_noticebefore r) (cf_scrubctcp r) (cf_defusermodes r) (cf_maxconn r) (cf_maxjoins r) (cf_maxconnip r) (cf_maxnick r) (cf_maxlist r) (cf_maxpenalty r) (cf_authping r) (cf_hostname r) (cf_webircpwd r) (cf_dns r) (cf_rtext r) (cf_timestr r) (cf_startdate r) (cf_keyfile r).
Definition set_cf_cloakhost (v : bytes) (r : conf) : conf := mkConf (cf_servername r) (cf_serverinfo r) (cf_serverpwd r) (cf_admin1 r) (cf_admin2 r) (cf_adminmail r) (cf_network r) (cf_motd r) (cf_help r) (cf_pingtimeout r) (cf_pongtimeout r) (cf_connectretry r) (cf_opers r) (cf_channels r) (cf_chantypes r) (cf_opercanmode r) (cf_operchanpautoop r) (cf_operservermode r) (cf_allowremoteoper r) v (cf_cloakhostmodex r) (cf_cloaksalt r) (cf_cloakusertonick r) (cf_moreprivacy r) (cf_noticebefore r) (cf_scrubctcp r) (cf_defusermodes r) (cf_maxconn r) (cf_maxjoins r) (cf_maxconnip r) (cf_maxnick r) (cf_maxlist r) (cf_maxpenalty r) (cf_authping r) (cf_hostname r) (cf_webircpwd r) (cf_dns r) (cf_rtext r) (cf_timestr r) (cf_startdate r) (cf_keyfile r).
Definition set_cf_cloakhostmodex (v : bytes) (r : conf) : conf := mkConf (cf_servername r) (cf_serverinfo r) (cf_serverpwd r) (cf_admin1 r) (cf_admin2 r) (cf_adminmail r) (cf_network r) (cf_motd r) (cf_help r) (cf_pingtimeout r) (cf_pongtimeout r) (cf_connectretry r) (cf_opers r) (cf_channels r) (cf_chantypes r) (cf_opercanmode r) (cf_operchanpautoop r) (cf_operservermode r) (cf_allowremoteoper r) (cf_cloakhost r) v (cf_cloaksalt r) (cf_cloakusertonick r) (cf_moreprivacy r) (cf_noticebefore r) (cf_scrubctcp r) (cf_defusermodes r) (cf_maxconn r) (cf_maxjoins r) (cf_maxconnip r) (cf_maxnick r) (cf_maxlist r) (cf_maxpenalty r) (cf_authping r) (cf_hostname r) (cf_webircpwd r) (cf_dns r) (cf_rtext r) (cf_timestr r) (cf_startdate r) (cf_keyfile r).
Definition set_cf_cloaksalt (v : bytes) (r : conf) : conf := mkConf (cf_servername r) (cf_serverinfo r) (cf_serverpwd r) (cf_admin1 r) (cf_admin2 r) (cf_adminmail r) (cf_network r) (cf_motd r) (cf_help r) (cf_pingtimeout r) (cf_pongtimeout r) (cf_connectretry r) (cf_opers r) (cf_channels r) (cf_chantypes r) (cf_opercanmode r) (cf_operchanpautoop r) (cf_operservermode r) (cf_allowremoteoper r) (cf_cloakhost r) (cf_cloakhostmodex r) v (cf_cloakusertonick r) (cf_moreprivacy r) (cf_noticebefore r) (cf_scrubctcp r) (cf_defusermodes r) (cf_maxconn r) (cf_maxjoins r) (cf_maxconnip r) (cf_maxnick r) (cf_maxlist r) (cf_maxpenalty r) (cf_authping r) (cf_hostname r) (cf_webircpwd r) (cf_dns r) (cf_rtext r) (cf_timestr r) (cf_startdate r) (cf_keyfile r).
Definition set_cf_cloakusertonick (v : bool) (r : conf) : conf := mkConf (cf_servername r) (cf_serverinfo r) (cf_serverpwd r) (cf_admin1 r) (cf_admin2 r) (cf_adminmail r) (cf_network r) (cf_motd r) (cf_help r) (cf_pingtimeout r) (cf_pongtimeout r) (cf_connectretry r) (cf_opers r) (cf_channels r) (cf_chantypes r) (cf_opercanmode r) (cf_operchanpautoop r) (cf_operservermode r) (cf_allowremoteoper r) (cf_cloakhost r) (cf_cloakhostmodex r) (cf_cloaksalt r) v (cf_moreprivacy r) (cf_noticebefore r) (cf_scrubctcp r) (cf_defusermodes r) (cf_maxconn r) (cf_maxjoins r) (cf_maxconnip r) (cf_maxnick r) (cf_maxlist r) (cf_maxpenalty r) (cf_authping r) (cf_hostname r) (cf_webircpwd r) (cf_dns r) (cf_rtext r) (cf_timestr r) (cf_startdate r) (cf_keyfile r).
Definition set_cf_moreprivacy (v : bool) (r : conf) : conf := mkConf (cf_servername r) (cf_serverinfo r) (cf_serverpwd r) (cf_admin1 r) (cf_admin2 r) (cf_adminmail r) (cf_network r) (cf_motd r) (cf_help r) (cf_pingtimeout r) (cf_pongtimeout r) (cf_connectretry r) (cf_opers r) (cf_channels r) (cf_chantypes r) (cf_opercanmode r) (cf_operchanpautoop r) (cf_operservermode r) (cf_allowremoteoper r) (cf_cloakhost r) (cf_cloakhostmodex r) (cf_cloaksalt r) (cf_cloakusertonick r) v (cf_noticebefore r) (cf_scrubctcp r) (cf_defusermodes r) (cf_maxconn r) (cf_maxjoins r) (cf_maxconnip r) (cf_maxnick r) (cf_maxlist r) (cf_maxpenalty r) (cf_authping r) (cf_hostname r) (cf_webircpwd r) (cf_dns r) (cf_rtext r) (cf_timestr r) (cf_startdate r) (cf_keyfile r).
Definition set_cf_noticebefore (v : bool) (r : conf) : conf := mkConf (cf_servername r) (cf_serverinfo r) (cf_serverpwd r) (cf_admin1 r) (cf_admin2 r) (cf_adminmail r) (cf_network r) (cf_motd r) (cf_help r) (cf_pingtimeout r) (cf_pongtimeout r) (cf_connectretry r) (cf_opers r) (cf_channels r) (cf_chantypes r) (cf_opercanmode r) (cf_operchanpautoop r) (cf_operservermode r) (cf_allowremoteoper r) (cf_cloakhost r) (cf_cloakhostmodex r) (cf_cloaksalt r) (cf_cloakusertonick r) (cf_moreprivacy r) v (cf_scrubctcp r) (cf_defusermodes r) (cf_maxconn r) (cf_maxjoins r) (cf_maxconnip r) (cf_maxnick r) (cf_maxlist r) (cf_maxpenalty r) (cf_authping r) (cf_hostname r) (cf_webircpwd r) (cf_dns r) (cf_rtext r) (cf_timestr r) (cf_startdate r) (cf_keyfile r).
Definition set_cf_scrubctcp (v : bool) (r : conf) : conf := mkConf (cf_servername r) (cf_serverinfo r) (cf_serverpwd r) (cf_admin1 r) (cf_admin2 r) (cf_adminmail r) (cf_network r) (cf_motd r) (cf_help r) (cf_pingtimeout r) (cf_pongtimeout r) (cf_connectretry r) (cf_opers r) (cf_channels r) (cf_chantypes r) (cf_opercanmode r) (cf_operchanpautoop r) (cf_operservermode r) (cf_allowremoteoper r) (cf_cloakhost r) (cf_cloakhostmodex r) (cf_cloaksalt r) (cf_cloakusertonick r) (cf_moreprivacy r) (cf_noticebefore r) v (cf_defusermodes r) (cf_maxconn r) (cf_maxjoins r) (cf_maxconnip r) (cf_maxnick r) (cf_maxlist r) (cf_maxpenalty r) (cf_authping r) (cf_hostname r) (cf_webircpwd r) (cf_dns r) (cf_rtext r) (cf_timestr r) (cf_startdate r) (cf_keyfile r).
Definition set_cf_defusermodes (v : bytes) (r : conf) : conf := mkConf (cf_servername r) (cf_serverinfo r) (cf_serverpwd r) (cf_admin1 r) (cf_admin2 r) (cf_adminmail r) (cf_network r) (cf_motd r) (cf_help r) (cf_pingtimeout r) (cf_pongtimeout r) (cf_connectretry r) (cf_opers r) (cf_channels r) (cf_chantypes r) (cf_opercanmode r) (cf_operchanpautoop r) (cf_operservermode r) (cf_allowremoteoper r) (cf_cloakhost r) (cf_cloakhostmodex r) (cf_cloaksalt r) (cf_cloakusertonick r) (cf_moreprivacy r) (cf_noticebefore r) (cf_scrubctcp r) v (cf_maxconn r) (cf_maxjoins r) (cf_maxconnip r) (cf_maxnick r) (cf_maxlist r) (cf_maxpenalty r) (cf_authping r) (cf_hostname r) (cf_webircpwd r) (cf_dns r) (cf_rtext r) (cf_timestr r) (cf_startdate r) (cf_keyfile r).
Definition set_cf_maxconn (v : Z) (r : conf) : conf := mkConf (cf_servername r) (cf_serverinfo r) (cf_serverpwd r) (cf_admin1 r) (cf_admin2 r) (cf_adminmail r) (cf_network r) (cf_motd r) (cf_help r) (cf_pingtimeout r) (cf_pongtimeout r) (cf_connectretry r) (cf_opers r) (cf_channels r) (cf_chantypes r) (cf_opercanmode r) (cf_operchanpautoop r) (cf_operservermode r) (cf_allowremoteoper r) (cf_cloakhost r) (cf_cloakhostmodex r) (cf_cloaksalt r) (cf_cloakusertonick r) (cf_moreprivacy r) (cf_noticebefore r) (cf_scrubctcp r) (cf_defusermodes r) v (cf_maxjoins r) (cf_maxconnip r) (cf_maxnick r) (cf_maxlist r) (cf_maxpenalty r) (cf_authping r) (cf_hostname r) (cf_webircpwd r) (cf_dns r) (cf_rtext r) (cf_timestr r) (cf_startdate r) (cf_keyfile r).
Definition set_cf_maxjoins (v : Z) (r : conf) : conf := mkConf (cf_servername r) (cf_serverinfo r) (cf_serverpwd r) (cf_admin1 r) (cf_admin2 r) (cf_adminmail r) (cf_network r) (cf_motd r) (cf_help r) (cf_pingtimeout r) (cf_pongtimeout r) (cf_connectretry r) (cf_opers r) (cf_channels r) (cf_chantypes r) (cf_opercanmode r) (cf_operchanpautoop r) (cf_operservermode r) (cf_allowremoteoper r) (cf_cloakhost r) (cf_cloakhostmodex r) (cf_cloaksalt r) (cf_cloakusertonick r) (cf_moreprivacy r) (cf_noticebefore r) (cf_scrubctcp r) (cf_defusermodes r) (cf_maxconn r) v (cf_maxconnip r) (cf_maxnick r) (cf_maxlist r) (cf_maxpenalty r) (cf_authping r) (cf_hostname r) (cf_webircpwd r) (cf_dns r) (cf_rtext r) (cf_timestr r) (cf_startdate r) (cf_keyfile r).
Definition set_cf_maxconnip (v : Z) (r : conf) : conf := mkConf (cf_servername r) (cf_serverinfo r) (cf_serverpwd r) (cf_admin1 r) (cf_admin2 r) (cf_adminmail r) (cf_network r) (cf_motd r) (cf_help r) (cf_pingtimeout r) (cf_pongtimeout r) (cf_connectretry r) (cf_opers r) (cf_channels r) (cf_chantypes r) (cf_opercanmode r) (cf_operchanpautoop r) (cf_operservermode r) (cf_allowremoteoper r) (cf_cloakhost r) (cf_cloakhostmodex r) (cf_cloaksalt r) (cf_cloakusertonick r) (cf_moreprivacy r) (cf_noticebefore r) (cf_scrubctcp r) (cf_defusermodes r) (cf_maxconn r) (cf_maxjoins r) v (cf_maxnick r) (cf_maxlist r) (cf_maxpenalty r) (cf_authping r) (cf_hostname r) (cf_webircpwd r) (cf_dns r) (cf_rtext r) (cf_timestr r) (cf_startdate r) (cf_keyfile r).
Definition set_cf_maxnick (v : nat) (r : conf) : conf := mkConf (cf_servername r) (cf_serverinfo r) (cf_serverpwd r) (cf_admin1 r) (cf_admin2 r) (cf_adminmail r) (cf_network r) (cf_motd r) (cf_help r) (cf_pingtimeout r) (cf_pongtimeout r) (cf_connectretry r) (cf_opers r) (cf_channels r) (cf_chantypes r) (cf_opercanmode r) (cf_operchanpautoop r) (cf_operservermode r) (cf_allowremoteoper r) (cf_cloakhost r) (cf_cloakhostmodex r) (cf_cloaksalt r) (cf_cloakusertonick r) (cf_moreprivacy r) (cf_noticebefore r) (cf_scrubctcp r) (cf_defusermodes r) (cf_maxconn r) (cf_maxjoins r) (cf_maxconnip r) v (cf_maxlist r) (cf_maxpenalty r) (cf_authping r) (cf_hostname r) (cf_webircpwd r) (cf_dns r) (cf_rtext r) (cf_timestr r) (cf_startdate r) (cf_keyfile r).
Definition set_cf_maxlist (v : Z) (r : conf) : conf := mkConf (cf_servername r) (cf_serverinfo r) (cf_serverpwd r) (cf_admin1 r) (cf_admin2 r) (cf_adminmail r) (cf_network r) (cf_motd r) (cf_help r) (cf_pingtimeout r) (cf_pongtimeout r) (cf_connectretry r) (cf_opers r) (cf_channels r) (cf_chantypes r) (cf_opercanmode r) (cf_operchanpautoop r) (cf_operservermode r) (cf_allowremoteoper r) (cf_cloakhost r) (cf_cloakhostmodex r) (cf_cloaksalt r) (cf_cloakusertonick r) (cf_moreprivacy r) (cf_noticebefore r) (cf_scrubctcp r) (cf_defusermodes r) (cf_maxconn r) (cf_maxjoins r) (cf_maxconnip r) (cf_maxnick r) v (cf_maxpenalty r) (cf_authping r) (cf_hostname r) (cf_webircpwd r) (cf_dns r) (cf_rtext r) (cf_timestr r) (cf_startdate r) (cf_keyfile r).
Definition set_cf_maxpenalty (v : Z) (r : conf) : conf := mkConf (cf_servername r) (cf_serverinfo r) (cf_serverpwd r) (cf_admin1 r) (cf_admin2 r) (cf_adminmail r) (cf_network r) (cf_motd r) (cf_help r) (cf_pingtimeout r) (cf_pongtimeout r) (cf_connectretry r) (cf_opers r) (cf_channels r) (cf_chantypes r) (cf_opercanmode r) (cf_operchanpautoop r) (cf_operservermode r) (cf_allowremoteoper r) (cf_cloakhost r) (cf_cloakhostmodex r) (cf_cloaksalt r) (cf_cloakusertonick r) (cf_moreprivacy r) (cf_noticebefore r) (cf_scrubctcp r) (cf_defusermodes r) (cf_maxconn r) (cf_maxjoins r) (cf_maxconnip r) (cf_maxnick r) (cf_maxlist r) v (cf_authping r) (cf_hostname r) (cf_webircpwd r) (cf_dns r) (cf_rtext r) (cf_timestr r) (cf_startdate r) (cf_keyfile r).
Definition set_cf_authping (v : bool) (r : conf) : conf := mkConf (cf_servername r) (cf_serverinfo r) (cf_serverpwd r) (cf_admin1 r) (cf_admin2 r) (cf_adminmail r) (cf_network r) (cf_motd r) (cf_help r) (cf_pingtimeout r) (cf_pongtimeout r) (cf_connectretry r) (cf_opers r) (cf_channels r) (cf_chantypes r) (cf_opercanmode r) (cf_operchanpautoop r) (cf_operservermode r) (cf_allowremoteoper r) (cf_cloakhost r) (cf_cloakhostmodex r) (cf_cloaksalt r) (cf_cloakusertonick r) (cf_moreprivacy r) (cf_noticebefore r) (cf_scrubctcp r) (cf_defusermodes r) (cf_maxconn r) (cf_maxjoins r) (cf_maxconnip r) (cf_maxnick r) (cf_maxlist r) (cf_maxpenalty r) v (cf_hostname r) (cf_webircpwd r) (cf_dns r) (cf_rtext r) (cf_timestr r) (cf_startdate r) (cf_keyfile r).
Definition set_cf_hostname (v : bytes) (r : conf) : conf := mkConf (cf_servername r) (cf_serverinfo r) (cf_serverpwd r) (cf_admin1 r) (cf_admin2 r) (cf_adminmail r) (cf_network r) (cf_motd r) (cf_help r) (cf_pingtimeout r) (cf_pongtimeout r) (cf_connectretry r) (cf_opers r) (cf_channels r) (cf_chantypes r) (cf_opercanmode r) (cf_operchanpautoop r) (cf_operservermode r) (cf_allowremoteoper r) (cf_cloakhost r) (cf_cloakhostmodex r) (cf_cloaksalt r) (cf_cloakusertonick r) (cf_moreprivacy r) (cf_noticebefore r) (cf_scrubctcp r) (cf_defusermodes r) (cf_maxconn r) (cf_maxjoins r) (cf_maxconnip r) (cf_maxnick r) (cf_maxlist r) (cf_maxpenalty r) (cf_authping r) v (cf_webircpwd r) (cf_dns r) (cf_rtext r) (cf_timestr r) (cf_startdate r) (cf_keyfile r).
Definition set_cf_webircpwd (v : bytes) (r : conf) : conf := mkConf (cf_servername r) (cf_serverinfo r) (cf_serverpwd r) (cf_admin1 r) (cf_admin2 r) (cf_adminmail r) (cf_network r) (cf_motd r) (cf_help r) (cf_pingtimeout r) (cf_pongtimeout r) (cf_connectretry r) (cf_opers r) (cf_channels r) (cf_chantypes r) (cf_opercanmode r) (cf_operchanpautoop r) (cf_operservermode r) (cf_allowremoteoper r) (cf_cloakhost r) (cf_cloakhostmodex r) (cf_cloaksalt r) (cf_cloakusertonick r) (cf_moreprivacy r) (cf_noticebefore r) (cf_scrubctcp r) (cf_defusermodes r) (cf_maxconn r) (cf_maxjoins r) (cf_maxconnip r) (cf_maxnick r) (cf_maxlist r) (cf_maxpenalty r) (cf_authping r) (cf_hostname r) v (cf_dns r) (cf_rtext r) (cf_timestr r) (cf_startdate r) (cf_keyfile r).
Definition set_cf_dns (v : bool) (r : conf) : conf := mkConf (cf_servername r) (cf_serverinfo r) (cf_serverpwd r) (cf_admin1 r) (cf_admin2 r) (cf_adminmail r) (cf_network r) (cf_motd r) (cf_help r) (cf_pingtimeout r) (cf_pongtimeout r) (cf_connectretry r) (cf_opers r) (cf_channels r) (cf_chantypes r) (cf_opercanmode r) (cf_operchanpautoop r) (cf_operservermode r) (cf_allowremoteoper r) (cf_cloakhost r) (cf_cloakhostmodex r) (cf_cloaksalt r) (cf_cloakusertonick r) (cf_moreprivacy r) (cf_noticebefore r) (cf_scrubctcp r) (cf_defusermodes r) (cf_maxconn r) (cf_maxjoins r) (cf_maxconnip r) (cf_maxnick r) (cf_maxlist r) (cf_maxpenalty r) (cf_authping r) (cf_hostname r) (cf_webircpwd r) v (cf_rtext r) (cf_timestr r) (cf_startdate r) (cf_keyfile r).
Definition set_cf_rtext (v : Z -> bytes) (r : conf) : conf := mkConf (cf_servername r) (cf_serverinfo r) (cf_serverpwd r) (cf_admin1 r) (cf_admin2 r) (cf_adminmail r) (cf_network r) (cf_motd r) (cf_help r) (cf_pingtimeout r) (cf_pongtimeout r) (cf_connectretry r) (cf_opers r) (cf_channels r) (cf_chantypes r) (cf_opercanmode r) (cf_operchanpautoop r) (cf_operservermode r) (cf_allowremoteoper r) (cf_cloakhost r) (cf_cloakhostmodex r) (cf_cloaksalt r) (cf_cloakusertonick r) (cf_moreprivacy r) (cf_noticebefore r) (cf_scrubctcp r) (cf_defusermodes r) (cf_maxconn r) (cf_maxjoins r) (cf_maxconnip r) (cf_maxnick r) (cf_maxlist r) (cf_maxpenalty r) (cf_authping r) (cf_hostname r) (cf_webircpwd r) (cf_dns r) v (cf_timestr r) (cf_startdate r) (cf_keyfile r).
Definition set_cf_timestr (v : Z -> bytes) (r : conf) : conf := mkConf (cf_servername r) (cf_serverinfo r) (cf_serverpwd r) (cf_admin1 r) (cf_admin2 r) (cf_adminmail r) (cf_network r) (cf_motd r) (cf_help r) (cf_pingtimeout r) (cf_pongtimeout r) (cf_connectretry r) (cf_opers r) (cf_channels r) (cf_chantypes r) (cf_opercanmode r) (cf_operchanpautoop r) (cf_operservermode r) (cf_allowremoteoper r) (cf_cloakhost r) (cf_cloakhostmodex r) (cf_cloaksalt r) (cf_cloakusertonick r) (cf_moreprivacy r) (cf_noticebefore r) (cf_scrubctcp r) (cf_defusermodes r) (cf_maxconn r) (cf_maxjoins r) (cf_maxconnip r) (cf_maxnick r) (cf_maxlist r) (cf_maxpenalty r) (cf_authping r) (cf_hostname r) (cf_webircpwd r) (cf_dns r) (cf_rtext r) v (cf_startdate r) (cf_keyfile r).
Definition set_cf_startdate (v : bytes) (r : conf) : conf := mkConf (cf_servername r) (cf_serverinfo r) (cf_serverpwd r) (cf_admin1 r) (cf_admin2 r) (cf_adminmail r) (cf_network r) (cf_motd r) (cf_help r) (cf_pingtimeout r) (cf_pongtimeout r) (cf_connectretry r) (cf_opers r) (cf_channels r) (cf_chantypes r) (cf_opercanmode r) (cf_operchanpautoop r) (cf_operservermode r) (cf_allowremoteoper r) (cf_cloakhost r) (cf_cloakhostmodex r) (cf_cloaksalt r) (cf_cloakusertonick r) (cf_moreprivacy r) (cf_noticebefore r) (cf_scrubctcp r) (cf_defusermodes r) (cf_maxconn r) (cf_maxjoins r) (cf_maxconnip r) (cf_maxnick r) (cf_maxlist r) (cf_maxpenalty r) (cf_authping r) (cf_hostname r) (cf_webircpwd r) (cf_dns r) (cf_rtext r) (cf_timestr r) v (cf_keyfile r).
Definition set_cf_keyfile (v : bytes -> list bytes) (r : conf) : conf := mkConf (cf_servername r) (cf_serverinfo r) (cf_serverpwd r) (cf_admin1 r) (cf_admin2 r) (cf_adminmail r) (cf_network r) (cf_motd r) (cf_help r) (cf_pingtimeout r) (cf_pongtimeout r) (cf_connectretry r) (cf_opers r) (cf_channels r) (cf_chantypes r) (cf_opercanmode r) (cf_operchanpautoop r) (cf_operservermode r) (cf_allowremoteoper r) (cf_cloakhost r) (cf_cloakhostmodex r) (cf_cloaksalt r) (cf_cloakusertonick r) (cf_moreprivacy r) (cf_noticebefore r) (cf_scrubctcp r) (cf_defusermodes r) (cf_maxconn r) (cf_maxjoins r) (cf_maxconnip r) (cf_maxnick r) (cf_maxlist r) (cf_maxpenalty r) (cf_authping r) (cf_hostname r) (cf_webircpwd r) (cf_dns r) (cf_rtext r) (cf_timestr r) (cf_startdate r) v.

(** The global variables of the server. s_now: time(NULL); s_rnd: the value rand() delivers next (both set by the environment); s_out: everything written, newest first; s_odd: history variable, see above *)
Record state := mkState {
  s_conf : conf;
  s_now : Z;
  s_rnd : Z;
  s_heap : list (handle * client);
  s_clients : list handle;
  s_next : handle;
  s_chans : list (chandle * channel);
  s_chnext : chandle;
  s_members : list member;
  s_conns : list (connid * conn);
  s_numconn : Z;
  s_numconnmax : Z;
  s_accepted : Z;
  s_out : list (connid * bytes);
  s_glines : mlist;
  s_klines : mlist;
  s_servers : list cserver;
  s_whowas : list whowas;
  s_lastww : Z;
  s_maxusers : Z;
  s_mymaxusers : Z;
  s_sigquit : bool;
  s_sigrestart : bool;
  s_sigrehash : bool;
  s_wcounter : Z;
  s_start : Z;
  s_odd : list oddity
}.

Definition set_s_conf (v : conf) (r : state) : state := mkState v (s_now r) (s_rnd r) (s_heap r) (s_clients r) (s_next r) (s_chans r) (s_chnext r) (s_members r) (s_conns r) (s_numconn r) (s_numconnmax r) (s_accepted r) (s_out r) (s_glines r) (s_klines r) (s_servers r) (s_whowas r) (s_lastww r) (s_maxusers r) (s_mymaxusers r) (s_sigquit r) (s_sigrestart r) (s_sigrehash r) (s_wcounter r) (s_start r) (s_odd r).
Definition set_s_now (v : Z) (r : state) : state := mkState (s_conf r) v (s_rnd r) (s_heap r) (s_clients r) (s_next r) (s_chans r) (s_chnext r) (s_members r) (s_conns r) (s_numconn r) (s_numconnmax r) (s_accepted r) (s_out r) (s_glines r) (s_klines r) (s_servers r) (s_whowas r) (s_lastww r) (s_maxusers r) (s_mymaxusers r) (s_sigquit r) (s_sigrestart r) (s_sigrehash r) (s_wcounter r) (s_start r) (s_odd r).
Definition set_s_rnd (v : Z) (r : state) : state := mkState (s_conf r) (s_now r) v (s_heap r) (s_clients r) (s_next r) (s_chans r) (s_chnext r) (s_members r) (s_conns r) (s_numconn r) (s_numconnmax r) (s_accepted r) (s_out r) (s_glines r) (s_klines r) (s_servers r) (s_whowas r) (s_lastww r) (s_maxusers r) (s_mymaxusers r) (s_sigquit r) (s_sigrestart r) (s_sigrehash r) (s_wcounter r) (s_start r) (s_odd r).
Definition set_s_heap (v : list (handle * client)) (r : state) : state := mkState (s_conf r) (s_now r) (s_rnd r) v (s_clients r) (s_next r) (s_chans r) (s_chnext r) (s_members r) (s_conns r) (s_numconn r) (s_numconnmax r) (s_accepted r) (s_out r) (s_glines r) (s_klines r) (s_servers r) (s_whowas r) (s_lastww r) (s_maxusers r) (s_mymaxusers r) (s_sigquit r) (s_sigrestart r) (s_sigrehash r) (s_wcounter r) (s_start r) (s_odd r).
Definition set_s_clients (v : list handle) (r : state) : state := mkState (s_conf r) (s_now r) (s_rnd r) (s_heap r) v (s_next r) (s_chans r) (s_chnext r) (s_members r) (s_conns r) (s_numconn r) (s_numconnmax r) (s_accepted r) (s_out r) (s_glines r) (s_klines r) (s_servers r) (s_whowas r) (s_lastww r) (s_maxusers r) (s_mymaxusers r) (s_sigquit r) (s_sigrestart r) (s_sigrehash r) (s_wcounter r) (s_start r) (s_odd r).
Definition set_s_next (v : handle) (r : state) : state := mkState (s_conf r) (s_now r) (s_rnd r) (s_heap r) (s_clients r) v (s_chans r) (s_chnext r) (s_members r) (s_conns r) (s_numconn r) (s_numconnmax r) (s_accepted r) (s_out r) (s_glines r) (s_klines r) (s_servers r) (s_whowas r) (s_lastww r) (s_maxusers r) (s_mymaxusers r) (s_sigquit r) (s_sigrestart r) (s_sigrehash r) (s_wcounter r) (s_start r) (s_odd r).
Definition set_s_chans (v : list (chandle * channel)) (r : state) : state := mkState (s_conf r) (s_now r) (s_rnd r) (s_heap r) (s_clients r) (s_next r) v (s_chnext r) (s_members r) (s_conns r) (s_numconn r) (s_numconnmax r) (s_accepted r) (s_out r) (s_glines r) (s_klines r) (s_servers r) (s_whowas r) (s_lastww r) (s_maxusers r) (s_mymaxusers r) (s_sigquit r) (s_sigrestart r) (s_sigrehash r) (s_wcounter r) (s_start r) (s_odd r).
Definition set_s_chnext (v : chandle) (r : state) : state := mkState (s_conf r) (s_now r) (s_rnd r) (s_heap r) (s_clients r) (s_next r) (s_chans r) v (s_members r) (s_conns r) (s_numconn r) (s_numconnmax r) (s_accepted r) (s_out r) (s_glines r) (s_klines r) (s_servers r) (s_whowas r) (s_lastww r) (s_maxusers r) (s_mymaxusers r) (s_sigquit r) (s_sigrestart r) (s_sigrehash r) (s_wcounter r) (s_start r) (s_odd r).
Definition set_s_members (v : list member) (r : state) : state := mkState (s_conf r) (s_now r) (s_rnd r) (s_heap r) (s_clients r) (s_next r) (s_chans r) (s_chnext r) v (s_conns r) (s_numconn r) (s_numconnmax r) (s_accepted r) (s_out r) (s_glines r) (s_klines r) (s_servers r) (s_whowas r) (s_lastww r) (s_maxusers r) (s_mymaxusers r) (s_sigquit r) (s_sigrestart r) (s_sigrehash r) (s_wcounter r) (s_start r) (s_odd r).
Definition set_s_conns (v : list (connid * conn)) (r : state) : state := mkState (s_conf r) (s_now r) (s_rnd r) (s_heap r) (s_clients r) (s_next r) (s_chans r) (s_chnext r) (s_members r) v (s_numconn r) (s_numconnmax r) (s_accepted r) (s_out r) (s_glines r) (s_klines r) (s_servers r) (s_whowas r) (s_lastww r) (s_maxusers r) (s_mymaxusers r) (s_sigquit r) (s_sigrestart r) (s_sigrehash r) (s_wcounter r) (s_start r) (s_odd r).
Definition set_s_numconn (v : Z) (r : state) : state := mkState (s_conf r) (s_now r) (s_rnd r) (s_heap r) (s_clients r) (s_next r) (s_chans r) (s_chnext r) (s_members r) (s_conns r) v (s_numconnmax r) (s_accepted r) (s_out r) (s_glines r) (s_klines r) (s_servers r) (s_whowas r) (s_lastww r) (s_maxusers r) (s_mymaxusers r) (s_sigquit r) (s_sigrestart r) (s_sigrehash r) (s_wcounter r) (s_start r) (s_odd r).
Definition set_s_numconnmax (v : Z) (r : state) : state := mkState (s_conf r) (s_now r) (s_rnd r) (s_heap r) (s_clients r) (s_next r) (s_chans r) (s_chnext r) (s_members r) (s_conns r) (s_numconn r) v (s_accepted r) (s_out r) (s_glines r) (s_klines r) (s_servers r) (s_whowas r) (s_lastww r) (s_maxusers r) (s_mymaxusers r) (s_sigquit r) (s_sigrestart r) (s_sigrehash r) (s_wcounter r) (s_start r) (s_odd r).
Definition set_s_accepted (v : Z) (r : state) : state := mkState (s_conf r) (s_now r) (s_rnd r) (s_heap r) (s_clients r) (s_next r) (s_chans r) (s_chnext r) (s_members r) (s_conns r) (s_numconn r) (s_numconnmax r) v (s_out r) (s_glines r) (s_klines r) (s_servers r) (s_whowas r) (s_lastww r) (s_maxusers r) (s_mymaxusers r) (s_sigquit r) (s_sigrestart r) (s_sigrehash r) (s_wcounter r) (s_start r) (s_odd r).
Definition set_s_out (v : list (connid * bytes)) (r : state) : state := mkState (s_conf r) (s_now r) (s_rnd r) (s_heap r) (s_clients r) (s_next r) (s_chans r) (s_chnext r) (s_members r) (s_conns r) (s_numconn r) (s_numconnmax r) (s_accepted r) v (s_glines r) (s_klines r) (s_servers r) (s_whowas r) (s_lastww r) (s_maxusers r) (s_mymaxusers r) (s_sigquit r) (s_sigrestart r) (s_sigrehash r) (s_wcounter r) (s_start r) (s_odd r).
Definition set_s_glines (v : mlist) (r : state) : state := mkState (s_conf r) (s_now r) (s_rnd r) (s_heap r) (s_clients r) (s_next r) (s_chans r) (s_chnext r) (s_members r) (s_conns r) (s_numconn r) (s_numconnmax r) (s_accepted r) (s_out r) v (s_klines r) (s_servers r) (s_whowas r) (s_lastww r) (s_maxusers r) (s_mymaxusers r) (s_sigquit r) (s_sigrestart r) (s_sigrehash r) (s_wcounter r) (s_start r) (s_odd r).
Definition set_s_klines (v : mlist) (r : state) : state := mkState (s_conf r) (s_now r) (s_rnd r) (s_heap r) (s_clients r) (s_next r) (s_chans r) (s_chnext r) (s_members r) (s_conns r) (s_numconn r) (s_numconnmax r) (s_accepted r) (s_out r) (s_glines r) v (s_servers r) (s_whowas r) (s_lastww r) (s_maxusers r) (s_mymaxusers r) (s_sigquit r) (s_sigrestart r) (s_sigrehash r) (s_wcounter r) (s_start r) (s_odd r).
Definition set_s_servers (v : list cserver) (r : state) : state := mkState (s_conf r) (s_now r) (s_rnd r) (s_heap r) (s_clients r) (s_next r) (s_chans r) (s_chnext r) (s_members r) (s_conns r) (s_numconn r) (s_numconnmax r) (s_accepted r) (s_out r) (s_glines r) (s_klines r) v (s_whowas r) (s_lastww r) (s_maxusers r) (s_mymaxusers r) (s_sigquit r) (s_sigrestart r) (s_sigrehash r) (s_wcounter r) (s_start r) (s_odd r).
Definition set_s_whowas (v : list whowas) (r : state) : state := mkState (s_conf r) (s_now r) (s_rnd r) (s_heap r) (s_clients r) (s_next r) (s_chans r) (s_chnext r) (s_members r) (s_conns r) (s_numconn r) (s_numconnmax r) (s_accepted r) (s_out r) (s_glines r) (s_klines r) (s_servers r) v (s_lastww r) (s_maxusers r) (s_mymaxusers r) (s_sigquit r) (s_sigrestart r) (s_sigrehash r) (s_wcounter r) (s_start r) (s_odd r).
Definition set_s_lastww (v : Z) (r : state) : state := mkState (s_conf r) (s_now r) (s_rnd r) (s_heap r) (s_clients r) (s_next r) (s_chans r) (s_chnext r) (s_members r) (s_conns r) (s_numconn r) (s_numconnmax r) (s_accepted r) (s_out r) (s_glines r) (s_klines r) (s_servers r) (s_whowas r) v (s_maxusers r) (s_mymaxusers r) (s_sigquit r) (s_sigrestart r) (s_sigrehash r) (s_wcounter r) (s_start r) (s_odd r).
Definition set_s_maxusers (v : Z) (r : state) : state := mkState (s_conf r) (s_now r) (s_rnd r) (s_heap r) (s_clients r) (s_next r) (s_chans r) (s_chnext r) (s_members r) (s_conns r) (s_numconn r) (s_numconnmax r) (s_accepted r) (s_out r) (s_glines r) (s_klines r) (s_servers r) (s_whowas r) (s_lastww r) v (s_mymaxusers r) (s_sigquit r) (s_sigrestart r) (s_sigrehash r) (s_wcounter r) (s_start r) (s_odd r).
Definition set_s_mymaxusers (v : Z) (r : state) : state := mkState (s_conf r) (s_now r) (s_rnd r) (s_heap r) (s_clients r) (s_next r) (s_chans r) (s_chnext r) (s_members r) (s_conns r) (s_numconn r) (s_numconnmax r) (s_accepted r) (s_out r) (s_glines r) (s_klines r) (s_servers r) (s_whowas r) (s_lastww r) (s_maxusers r) v (s_sigquit r) (s_sigrestart r) (s_sigrehash r) (s_wcounter r) (s_start r) (s_odd r).
Definition set_s_sigquit (v : bool) (r : state) : state := mkState (s_conf r) (s_now r) (s_rnd r) (s_heap r) (s_clients r) (s_next r) (s_chans r) (s_chnext r) (s_members r) (s_conns r) (s_numconn r) (s_numconnmax r) (s_accepted r) (s_out r) (s_glines r) (s_klines r) (s_servers r) (s_whowas r) (s_lastww r) (s_maxusers r) (s_mymaxusers r) v (s_sigrestart r) (s_sigrehash r) (s_wcounter r) (s_start r) (s_odd r).
Definition set_s_sigrestart (v : bool) (r : state) : state := mkState (s_conf r) (s_now r) (s_rnd r) (s_heap r) (s_clients r) (s_next r) (s_chans r) (s_chnext r) (s_members r) (s_conns r) (s_numconn r) (s_numconnmax r) (s_accepted r) (s_out r) (s_glines r) (s_klines r) (s_servers r) (s_whowas r) (s_lastww r) (s_maxusers r) (s_mymaxusers r) (s_sigquit r) v (s_sigrehash r) (s_wcounter r) (s_start r) (s_odd r).
Definition set_s_sigrehash (v : bool) (r : state) : state := mkState (s_conf r) (s_now r) (s_rnd r) (s_heap r) (s_clients r) (s_next r) (s_chans r) (s_chnext r) (s_members r) (s_conns r) (s_numconn r) (s_numconnmax r) (s_accepted r) (s_out r) (s_glines r) (s_klines r) (s_servers r) (s_whowas r) (s_lastww r) (s_maxusers r) (s_mymaxusers r) (s_sigquit r) (s_sigrestart r) v (s_wcounter r) (s_start r) (s_odd r).
Definition set_s_wcounter (v : Z) (r : state) : state := mkState (s_conf r) (s_now r) (s_rnd r) (s_heap r) (s_clients r) (s_next r) (s_chans r) (s_chnext r) (s_members r) (s_conns r) (s_numconn r) (s_numconnmax r) (s_accepted r) (s_out r) (s_glines r) (s_klines r) (s_servers r) (s_whowas r) (s_lastww r) (s_maxusers r) (s_mymaxusers r) (s_sigquit r) (s_sigrestart r) (s_sigrehash r) v (s_start r) (s_odd r).
Definition set_s_start (v : Z) (r : state) : state := mkState (s_conf r) (s_now r) (s_rnd r) (s_heap r) (s_clients r) (s_next r) (s_chans r) (s_chnext r) (s_members r) (s_conns r) (s_numconn r) (s_numconnmax r) (s_accepted r) (s_out r) (s_glines r) (s_klines r) (s_servers r) (s_whowas r) (s_lastww r) (s_maxusers r) (s_mymaxusers r) (s_sigquit r) (s_sigrestart r) (s_sigrehash r) (s_wcounter r) v (s_odd r).
Definition set_s_odd (v : list oddity) (r : state) : state := mkState (s_conf r) (s_now r) (s_rnd r) (s_heap r) (s_clients r) (s_next r) (s_chans r) (s_chnext r) (s_members r) (s_conns r) (s_numconn r) (s_numconnmax r) (s_accepted r) (s_out r) (s_glines r) (s_klines r) (s_servers r) (s_whowas r) (s_lastww r) (s_maxusers r) (s_mymaxusers r) (s_sigquit r) (s_sigrestart r) (s_sigrehash r) (s_wcounter r) (s_start r) v.
