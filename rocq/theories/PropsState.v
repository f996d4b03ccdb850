(** Property theorems about the tables of the server in every reachable state
    (C09-C14, C25-C27, C47). [reachable] (Conn.v): every state after any sequence of events, with
    any configuration accepted by the server, any data from any number of users and servers. *)
From Coq Require Import List Ascii String ZArith NArith Bool Lia Arith.
From Verif Require Import Bytes Lists State Monad Core Write Info Chan Mode Msg Login Oper Server Dispatch Conn Spec Observ Split Sessions.
Import ListNotations.

(** ** C09 *)
Theorem C09_nicknames_are_legal : forall s h c, reachable s -> undisturbed s ->
  known s h c -> is_local c -> cl_type c = T_USER -> legal_nick (cf_maxnick (s_conf s)) (cl_id c).
Proof. exact local_nick_ok. Qed.
Print Assumptions C09_nicknames_are_legal.

(** the same for a connection that is not registered yet, as soon as it has given a nickname *)
Theorem C09_nicknames_before_registration : forall s h c, reachable s -> undisturbed s -> known s h c -> is_local c ->
  In (cl_type c) [T_UNKNOWN; T_GOTPASS; T_GOTNICK; T_GOTUSER; T_WAITAUTHPING; T_WAITCAPEND] ->
  cl_id c = [] \/ legal_nick (cf_maxnick (s_conf s)) (cl_id c).
Proof. exact unregistered_nick_ok. Qed.
Print Assumptions C09_nicknames_before_registration.

(** the check itself accepts exactly the legal nicknames *)
Theorem C09_check_is_exact : forall limit n, valid_nick limit n = true <-> legal_nick limit n.
Proof. exact valid_nick_legal. Qed.
Print Assumptions C09_check_is_exact.

(** The set of characters is not the one of RFC 2812: a semicolon is accepted. *)
Theorem C09_semicolon_refuted : exists s h c, reachable s /\ undisturbed s /\ known s h c /\ is_local c /\ cl_type c = T_USER /\
  ~ (forall x, In x (cl_id c) -> In x (letters ++ specials ++ digits ++ B "-")).
Proof.
  set (l := [E_Accept 5 (B "1.2.3.4") false; E_Resolved 5 []; E_Data 5 (lines ["NICK a;b"; "USER ab 0 0 :x"]%string)]).
  exists (final conf0 [] l), 1. destruct (has_ok (final conf0 [] l) 1 (user_b "a;b")) as (c & K & U); [vm_compute; reflexivity|]. apply user_ok in U. destruct U as (U1 & U2 & U3).
  exists c. split; [apply reach_final; [exact conf0_ok|vm_compute; reflexivity]|]. split; [apply calm_ok; vm_compute; reflexivity|]. split; [exact K|]. split; [exact U1|]. split; [exact U2|].
  rewrite U3. intro H. revert H. intro H. specialize (H ";"%char (or_intror (or_introl eq_refl))). revert H. apply not_In_b. vm_compute. reflexivity.
Qed.
Print Assumptions C09_semicolon_refuted.

Example C09_nonvacuous : reachable st_link /\ undisturbed st_link /\ (exists c, known st_link (named "alice" st_link) c /\ is_local c /\ cl_type c = T_USER /\ cl_id c = B "alice").
Proof.
  split; [exact st_link_reachable|]. split; [apply calm_ok; vm_compute; reflexivity|].
  destruct (has_ok st_link (named "alice" st_link) (user_b "alice")) as (c & K & U); [vm_compute; reflexivity|]. exists c. split; [exact K|]. apply user_ok. auto.
Qed.

(** ** C10 *)
(** Every channel, unless created by the CHANINFO command of a linked server, has a legal name. *)
Theorem C10_channel_names_are_legal_partial : forall s ch c, reachable s -> exists_chan s ch c -> ~ In (O_Chan ch) (s_odd s) ->
  ~ In NUL (ch_name c) -> ch_name c = [] \/ legal_chan (ch_name c).
Proof. exact chan_name_ok. Qed.
Print Assumptions C10_channel_names_are_legal_partial.
Theorem C10_chaninfo_refuted : exists s ch c, reachable s /\ exists_chan s ch c /\ ~ legal_chan (ch_name c).
Proof.
  set (l := [":hub.example.net CHANINFO no:channel +t"%string]). exists (after_link l), (cnamed "no:channel" (after_link l)).
  destruct (chas_ok (after_link l) (cnamed "no:channel" (after_link l)) (fun c => beq (ch_name c) (B "no:channel"))) as (c & K & U); [vm_compute; reflexivity|]. apply beq_eq in U.
  exists c. split; [apply after_link_reachable; vm_compute; reflexivity|]. split; [exact K|]. rewrite U.
  intros [H _]. specialize (H "n"%char (B "o:channel") eq_refl). revert H. apply not_In_b. reflexivity.
Qed.
Print Assumptions C10_chaninfo_refuted.
Example C10_nonvacuous : exists ch c, exists_chan st_link ch c /\ ~ In (O_Chan ch) (s_odd st_link) /\ ~ In NUL (ch_name c) /\ ch_name c = B "#Test".
Proof.
  exists (cnamed "#test" st_link). destruct (chas_ok st_link (cnamed "#test" st_link) (fun c => beq (ch_name c) (B "#Test"))) as (c & K & U); [vm_compute; reflexivity|]. apply beq_eq in U.
  exists c. split; [exact K|]. split; [apply no_odd_ok; vm_compute; reflexivity|]. split; [|exact U]. rewrite U. apply not_In_b. reflexivity.
Qed.

(** ** C11 *)
(** The nickname of a local user is no other client's name. *)
Theorem C11_nicknames_are_unique : forall s x c y d, reachable s -> undisturbed s ->
  known s x c -> is_local c -> cl_type c = T_USER -> known s y d -> cl_type d <> T_SERVICE -> same_name (cl_id c) (cl_id d) -> x = y.
Proof. exact local_unique. Qed.
Print Assumptions C11_nicknames_are_unique.
(** Two clients (users or servers, local or remote, registered or not) never have the same name of
    less than 63 bytes without an exclamation mark. *)
Theorem C11_names_are_unique : forall s x c y d, reachable s -> known s x c -> known s y d -> same_name (cl_id c) (cl_id d) ->
  cl_id c <> [] -> List.length (cl_id c) < 63 -> ~ In "!"%char (cl_id c) -> cl_type c <> T_SERVICE -> cl_type d <> T_SERVICE -> x = y.
Proof. exact client_unique. Qed.
Print Assumptions C11_names_are_unique.
(** A peer can introduce two users with the same name, if this contains an exclamation mark. *)
Theorem C11_exclamation_mark_refuted : exists s x c y d, reachable s /\ known s x c /\ known s y d /\ x <> y /\
  cl_type c = T_USER /\ cl_type d = T_USER /\ cl_id c = cl_id d.
Proof.
  set (l := [":hub.example.net NICK u!x 1 u host 1 + :U"; ":hub.example.net NICK u!x 1 u host 1 + :U"]%string).
  destruct (has_ok (after_link l) 7 (rem_b T_USER "u!x")) as (c & K & U); [vm_compute; reflexivity|]. apply rem_ok in U. destruct U as [U1 U2].
  destruct (has_ok (after_link l) 8 (rem_b T_USER "u!x")) as (d & K' & U'); [vm_compute; reflexivity|]. apply rem_ok in U'. destruct U' as [U1' U2'].
  exists (after_link l), 7, c, 8, d. split; [apply after_link_reachable; vm_compute; reflexivity|]. split; [exact K|]. split; [exact K'|]. split; [discriminate|]. split; [exact U1|]. split; [exact U1'|]. rewrite U2, U2'. reflexivity.
Qed.
Print Assumptions C11_exclamation_mark_refuted.
Example C11_nonvacuous : reachable st_link /\ undisturbed st_link /\
  (exists c, known st_link (named "alice" st_link) c /\ is_local c /\ cl_type c = T_USER /\ cl_id c = B "alice") /\
  (exists c, known st_link (named "dave" st_link) c /\ cl_type c = T_USER /\ cl_id c = B "dave").
Proof.
  split; [exact st_link_reachable|]. split; [apply calm_ok; vm_compute; reflexivity|]. split.
  - destruct (has_ok st_link (named "alice" st_link) (user_b "alice")) as (c & K & U); [vm_compute; reflexivity|]. exists c. split; [exact K|]. apply user_ok. auto.
  - destruct (has_ok st_link (named "dave" st_link) (rem_b T_USER "dave")) as (c & K & U); [vm_compute; reflexivity|]. exists c. split; [exact K|]. apply rem_ok. auto.
Qed.

(** ** C12 *)
Theorem C12_channel_names_are_unique : forall s ch1 c1 ch2 c2, reachable s -> exists_chan s ch1 c1 -> exists_chan s ch2 c2 ->
  same_name (ch_name c1) (ch_name c2) -> ~ In (O_Chan ch1) (s_odd s) -> ~ In (O_Chan ch2) (s_odd s) -> ch1 = ch2.
Proof. exact chan_unique. Qed.
Print Assumptions C12_channel_names_are_unique.
(** CHANINFO cuts a name longer than 50 bytes only after it has looked for the channel. *)
Theorem C12_long_chaninfo_refuted : exists s ch1 c1 ch2 c2, reachable s /\ exists_chan s ch1 c1 /\ exists_chan s ch2 c2 /\ ch1 <> ch2 /\ ch_name c1 = ch_name c2.
Proof.
  set (n := "#23456789012345678901234567890123456789012345678901"%string). set (m := "#2345678901234567890123456789012345678901234567890"%string).
  set (l := [(":hub.example.net CHANINFO " ++ n ++ " +t")%string; (":hub.example.net CHANINFO " ++ n ++ " +t")%string]).
  destruct (chas_ok (after_link l) 2 (fun c => beq (ch_name c) (B m))) as (c & K & U); [vm_compute; reflexivity|]. apply beq_eq in U.
  destruct (chas_ok (after_link l) 3 (fun c => beq (ch_name c) (B m))) as (d & K' & U'); [vm_compute; reflexivity|]. apply beq_eq in U'.
  exists (after_link l), 2, c, 3, d. split; [apply after_link_reachable; vm_compute; reflexivity|]. split; [exact K|]. split; [exact K'|]. split; [discriminate|]. rewrite U, U'. reflexivity.
Qed.
Print Assumptions C12_long_chaninfo_refuted.
Example C12_nonvacuous : exists ch1 c1 ch2 c2, exists_chan st_link ch1 c1 /\ exists_chan st_link ch2 c2 /\ no_odd st_link = true /\ ch_name c1 = B "#Test" /\ ch_name c2 = B "&SERVER".
Proof.
  destruct (chas_ok st_link (cnamed "#test" st_link) (fun c => beq (ch_name c) (B "#Test"))) as (c & K & U); [vm_compute; reflexivity|]. apply beq_eq in U.
  destruct (chas_ok st_link (cnamed "&server" st_link) (fun c => beq (ch_name c) (B "&SERVER"))) as (d & K' & U'); [vm_compute; reflexivity|]. apply beq_eq in U'.
  exists (cnamed "#test" st_link), c, (cnamed "&server" st_link), d. split; [exact K|]. split; [exact K'|]. split; [vm_compute; reflexivity|]. split; [exact U|exact U'].
Qed.

(** ** C13 *)
Theorem C13_members_exist : forall s m, reachable s -> undisturbed s -> In m (s_members s) -> ~ In (O_Member (mb_chan m) (mb_client m)) (s_odd s) ->
  (exists c, exists_chan s (mb_chan m) c) /\ exists c, known s (mb_client m) c /\ (cl_type c = T_USER \/ cl_type c = T_SERVICE).
Proof. intros s m R U H O. split; [apply (membership_ok s m R H)|exact (membership_known s m R U H O)]. Qed.
Print Assumptions C13_members_exist.
(** even if linked servers misbehave, the channel of a membership exists *)
Theorem C13_channel_of_member_exists : forall s m, reachable s -> In m (s_members s) -> exists c, exists_chan s (mb_chan m) c.
Proof. intros s m R H. apply (membership_ok s m R H). Qed.
Print Assumptions C13_channel_of_member_exists.
Theorem C13_at_most_once : forall s i j m m', reachable s -> nth_error (s_members s) i = Some m -> nth_error (s_members s) j = Some m' ->
  mb_client m = mb_client m' -> mb_chan m = mb_chan m' -> i = j.
Proof. exact membership_once. Qed.
Print Assumptions C13_at_most_once.
(** A server that joins itself to a channel stays on it when it is gone. *)
Theorem C13_server_member_refuted : exists s m, reachable s /\ undisturbed s /\ In m (s_members s) /\ lookup (mb_client m) (s_heap s) = None.
Proof.
  set (l := [":hub.example.net NJOIN #test :leaf.example.net"; ":hub.example.net SQUIT leaf.example.net :gone"]%string).
  assert (E : existsb (fun m => negb (is_some (lookup (mb_client m) (s_heap (after_link l))))) (s_members (after_link l)) = true) by (vm_compute; reflexivity).
  apply existsb_exists in E. destruct E as (m & A & H). exists (after_link l), m. split; [apply after_link_reachable; vm_compute; reflexivity|]. split; [apply calm_ok; vm_compute; reflexivity|].
  split; [exact A|]. destruct (lookup (mb_client m) _); [discriminate|reflexivity].
Qed.
Print Assumptions C13_server_member_refuted.
Example C13_nonvacuous : reachable st_link /\ undisturbed st_link /\ no_odd st_link = true /\ List.length (s_members st_link) = 4.
Proof. split; [exact st_link_reachable|]. split; [apply calm_ok; vm_compute; reflexivity|]. split; vm_compute; reflexivity. Qed.

(** ** C14 *)
Theorem C14_channels_have_members : forall s ch c, reachable s -> exists_chan s ch c -> ~ In (O_Empty ch) (s_odd s) -> ~ In "P"%char (ch_modes c) ->
  exists h, is_on s h ch.
Proof. exact empty_chan_ok. Qed.
Print Assumptions C14_channels_have_members.
Theorem C14_chaninfo_refuted : exists s ch c, reachable s /\ exists_chan s ch c /\ ~ In "P"%char (ch_modes c) /\ forall h, ~ is_on s h ch.
Proof.
  set (l := [":hub.example.net CHANINFO #empty +t"%string]). destruct (chas_ok (after_link l) (cnamed "#empty" (after_link l)) (fun c => negb (memb "P" (ch_modes c)))) as (c & K & U); [vm_compute; reflexivity|].
  exists (after_link l), (cnamed "#empty" (after_link l)), c. split; [apply after_link_reachable; vm_compute; reflexivity|]. split; [exact K|]. split; [apply not_In_b; apply negb_true_iff; exact U|].
  intros h (m & A & _ & B). assert (E : forallb (fun m => negb (Nat.eqb (mb_chan m) (cnamed "#empty" (after_link l)))) (s_members (after_link l)) = true) by (vm_compute; reflexivity).
  rewrite forallb_forall in E. specialize (E _ A). rewrite B in E. rewrite Nat.eqb_refl in E. discriminate.
Qed.
Print Assumptions C14_chaninfo_refuted.
Example C14_nonvacuous : exists ch c, exists_chan st_link ch c /\ ~ In (O_Empty ch) (s_odd st_link) /\ ~ In "P"%char (ch_modes c).
Proof.
  destruct (chas_ok st_link (cnamed "#test" st_link) (fun c => negb (memb "P" (ch_modes c)))) as (c & K & U); [vm_compute; reflexivity|]. exists (cnamed "#test" st_link), c.
  split; [exact K|]. split; [apply no_odd_ok; vm_compute; reflexivity|]. apply not_In_b, negb_true_iff; auto.
Qed.

(** ** C25 *)
Theorem C25_mode_strings_are_sets : forall s, reachable s ->
  (forall h c, lookup h (s_heap s) = Some c -> List.length (cl_modes c) <= 20 /\ (is_local c -> NoDup (cl_modes c))) /\
  (forall ch c, exists_chan s ch c -> List.length (ch_modes c) <= 20 /\ (~ In (O_Modes ch) (s_odd s) -> NoDup (ch_modes c))) /\
  (forall m, In m (s_members s) -> List.length (mb_modes m) <= 20 /\ NoDup (mb_modes m)).
Proof. exact modes_ok. Qed.
Print Assumptions C25_mode_strings_are_sets.
(** Mode strings received from other servers are stored as they are. *)
Theorem C25_remote_modes_refuted : exists s h c, reachable s /\ known s h c /\ ~ NoDup (cl_modes c).
Proof.
  set (l := [":hub.example.net NICK eve 1 eve host 1 +ii :E"%string]). destruct (has_ok (after_link l) (named "eve" (after_link l)) (fun c => beq (cl_modes c) (B "ii"))) as (c & K & U); [vm_compute; reflexivity|].
  apply beq_eq in U. exists (after_link l), (named "eve" (after_link l)), c. split; [apply after_link_reachable; vm_compute; reflexivity|]. split; [exact K|]. rewrite U. intro N. inversion N. apply H1. left. reflexivity.
Qed.
Print Assumptions C25_remote_modes_refuted.

(** ** C26 *)
(** When the connection of a user or of a server is lost, exactly the clients behind it disappear
    (a user: only himself), with their memberships and with the channels that become empty;
    everything else stays. *)
Theorem C26_lost_connection : forall e i s s' cn, reachable s -> undisturbed s -> assoc i (s_conns s) = Some cn ->
  e = E_WriteError i \/ ((e = E_ReadError i \/ e = E_Data i []) /\ can_read (s_now s) cn = true) ->
  step e s = Ok tt s' ->
  exists h c, known s h c /\ cl_conn c = Some i /\ removed h s s' /\ assoc i (s_conns s') = None /\
    forall j, j <> i -> (assoc j (s_conns s') = None <-> assoc j (s_conns s) = None).
Proof. exact lost_removed. Qed.
Print Assumptions C26_lost_connection.
Definition st_split : state := final conf0 [peer] (two_users ++ link ++ [E_WriteError 7]).
Example C26_nonvacuous : reachable st_link /\ undisturbed st_link /\ is_some (assoc 7 (s_conns st_link)) = true /\
  match step (E_WriteError 7) st_link with Ok _ s' => Some (List.length (s_clients s'), List.length (s_members s')) | Bad _ => None end = Some (3, 2) /\
  (List.length (s_clients st_link), List.length (s_members st_link)) = (7, 4).
Proof. split; [exact st_link_reachable|]. split; [apply calm_ok; vm_compute; reflexivity|]. repeat split; vm_compute; reflexivity. Qed.

(** ** C27 *)
Theorem C27_tokens_are_unique : forall s x c y d, reachable s -> known s x c -> known s y d ->
  cl_type c = T_SERVER -> cl_type d = T_SERVER -> cl_mytoken c = cl_mytoken d -> x = y.
Proof. exact tokens_ok. Qed.
Print Assumptions C27_tokens_are_unique.
Theorem C27_token_one_is_ours : forall s x c, reachable s -> lookup x (s_heap s) = Some c -> cl_type c = T_SERVER ->
  (cl_mytoken c = 1%Z /\ x = This_Server) \/ (2 <= cl_mytoken c)%Z.
Proof. exact tokens_range. Qed.
Print Assumptions C27_token_one_is_ours.
Example C27_nonvacuous : reachable st_link /\ (exists c, known st_link (named "hub.example.net" st_link) c /\ cl_type c = T_SERVER /\ cl_id c = B "hub.example.net") /\
  (exists c, known st_link (named "leaf.example.net" st_link) c /\ cl_type c = T_SERVER /\ cl_id c = B "leaf.example.net").
Proof.
  split; [exact st_link_reachable|]. split.
  - destruct (has_ok st_link (named "hub.example.net" st_link) (rem_b T_SERVER "hub.example.net")) as (c & K & U); [vm_compute; reflexivity|]. exists c. split; [exact K|]. apply rem_ok; auto.
  - destruct (has_ok st_link (named "leaf.example.net" st_link) (rem_b T_SERVER "leaf.example.net")) as (c & K & U); [vm_compute; reflexivity|]. exists c. split; [exact K|]. apply rem_ok; auto.
Qed.

(** ** C47 *)
Theorem C47_connection_limits : forall c servers t r s0 l s, conf_ok c -> boot c servers t r = Ok tt s0 -> (forall e, In e l -> incoming e) -> run l s0 = Ok tt s ->
  ((0 < cf_maxconn c)%Z -> (Z.of_nat (connections s) <= cf_maxconn c)%Z) /\
  ((0 < cf_maxconnip c)%Z -> forall ip, (Z.of_nat (connections_from ip s) <= cf_maxconnip c)%Z).
Proof. exact limits_ok. Qed.
Print Assumptions C47_connection_limits.
(** two connection attempts with a limit of one *)
Definition conf1 : conf := set_cf_maxconn 1 (set_cf_maxconnip 1 conf0).
Example C47_nonvacuous : conf_ok conf1 /\ runs conf1 [] [E_Accept 5 (B "1.2.3.4") false; E_Accept 6 (B "1.2.3.5") false] = true /\
  connections (final conf1 [] [E_Accept 5 (B "1.2.3.4") false; E_Accept 6 (B "1.2.3.5") false]) = 1.
Proof. split; [exact conf0_ok|]. split; vm_compute; reflexivity. Qed.
(** Outgoing connections to other servers are not limited. *)
Theorem C47_outgoing_refuted : exists s, reachable s /\ (0 < cf_maxconn (s_conf s) < Z.of_nat (connections s))%Z.
Proof.
  exists (final conf1 [peer] [E_Accept 5 (B "1.2.3.4") false; E_NewServer 0 6 (B "1.2.3.9")]). split; [apply reach_final; [exact conf0_ok|vm_compute; reflexivity]|]. vm_compute. split; reflexivity.
Qed.
Print Assumptions C47_outgoing_refuted.
