(** Specifications for what is told about a MODE command for a channel (C28, C29, C31). *)
From Coq Require Import List Ascii String ZArith NArith Bool.
From Verif Require Import Bytes Match Lists ParseReq State Monad Spec SpecLink.
Import ListNotations.

(** what happened, from the state [s] to [s'], when [d], who is a user of this server on connection [i], or a user
    behind the server on connection [i] (which is [c]), changed something on channel [ch] called [name]: the lines
    [msgs] of this user, each once, in this order, and nothing else, were sent to every other linked server (but not
    if this is a channel of this server only), to every user of this server on the channel, and to the user itself if
    it is one of this server; and nobody else was sent anything *)
Definition announced (s s' : state) (i : connid) (c d : client) (ch : chandle) (name : bytes) (msgs : list bytes) : Prop :=
  (~ local_name name -> forall j x, link s j x -> is_open s j = true -> written s s' j (if (i =? j)%nat then [] else map (relayed d) msgs)) /\
  (local_name name -> to_no_server s s') /\
  (forall j x, local_on s j ch x -> i <> j -> is_open s j = true -> written s s' j (map (line_from s d x) msgs)) /\
  (cl_type c = T_USER -> is_open s i = true -> written s s' i (map (line_from s d c) msgs)) /\
  (forall j, is_open s j = true -> (forall x, ~ link s j x) -> (forall x, ~ local_on s j ch x) -> i <> j -> written s s' j []).

(** the modes of a channel that have no parameter *)
Definition flag_letters : bytes := B "RsziVMmnNQtOP".
Definition sign_of (add : bool) : ascii := if add then "+"%char else "-"%char.
(** those of the letters [fs] that are a change: setting a mode which is not set, removing one which is *)
Definition changed (k : channel) (add : bool) (fs : bytes) : bytes := filter (fun x => negb (Bool.eqb (memb x (ch_modes k)) add)) fs.
(** the command which tells it; none if nothing changed *)
Definition flags_msgs (name : bytes) (add : bool) (fs : bytes) : list bytes :=
  match fs with [] => [] | _ => [B "MODE " ++ name ++ " "%char :: sign_of add :: fs] end.
(** on the channel, or an operator who may use modes everywhere *)
Definition inside (s : state) (u : handle) (d : client) (ch : chandle) : Prop := mighty s d \/ is_on s u ch.
(** giving the privilege [x] to a member, or taking it *)
Definition priv_msgs (name : bytes) (add : bool) (x : ascii) (nick : bytes) : list bytes :=
  [B "MODE " ++ name ++ " "%char :: sign_of add :: x :: " "%char :: nick].

(** ** the lists of a channel: bans (b), exceptions (e), invitations (I) *)
Definition list_at (x : ascii) (k : channel) : mlist := if Ascii.eqb x "b" then ch_bans k else if Ascii.eqb x "e" then ch_excepts k else ch_invites k.
(** the mask [m] is in the list [l] *)
Definition has_mask (l : mlist) (m : bytes) : Prop := exists e, In e l /\ same_name (le_mask e) m.
(** the number of entries of the three lists *)
Definition entries (k : channel) : nat := List.length (ch_bans k) + List.length (ch_excepts k) + List.length (ch_invites k).
Definition list_text (name : bytes) (add : bool) (x : ascii) (m : bytes) : bytes := B "MODE " ++ name ++ " "%char :: sign_of add :: x :: " "%char :: m.
(** [x] is the letter of the key or of the limit, [a] the parameter of a MODE command which sets it, and [v] what is
    told: a key is not empty, has no space and at most 64 characters; a limit is a number between 1 and 65534 *)
Definition sets_value (x : ascii) (a v : bytes) : Prop :=
  (x = "k"%char /\ a <> [] /\ ~ In " "%char a /\ (List.length a < 65)%nat /\ v = a) \/ (x = "l"%char /\ (0 < atol a < 65535)%Z /\ v = dec (atol a)).
Definition value_text (name : bytes) (x : ascii) (v : bytes) : bytes := B "MODE " ++ name ++ " "%char :: "+"%char :: x :: " "%char :: v.
Definition drop_text (name : bytes) (x : ascii) : bytes := B "MODE " ++ name ++ " "%char :: "-"%char :: x :: (if Ascii.eqb x "k" then B " *" else []).
