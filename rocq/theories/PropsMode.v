(** Property theorems about what is told of MODE commands for channels (C28, C29, C31). *)
From Coq Require Import List Ascii String ZArith NArith Bool Lia Arith.
From Verif Require Import Bytes Match Lists ParseReq State Monad Core Write Info Chan Mode Msg Login Oper Server Dispatch Conn WF RelCmd Tree Live Observ HandLine Output HandDo HandSend HandCast HandNick HandJoined HandTell HandList Sessions PropsUser PropsLogin PropsSend PropsMore PropsLink PropsNick PropsJoin Spec SpecLink SpecNick SpecJoin SpecMode.
Import ListNotations.

(** ** C28 *)
(** A MODE command for a channel with any number of different letters of modes which have no parameter, given by a
    user of this server who may set (or remove) each of them, or by a user behind a linked server: exactly the
    letters that are a change are told, in one MODE command, once to every linked server except the source, to every
    user of this server on the channel and to the user himself, if he is one of this server; nobody else is sent
    anything; and the modes of the channel afterwards are what that says. *)
Theorem C28_mode_partial : forall s i h c text name add fs u d ch k b s', live s -> undisturbed s -> client_of s i h c -> acts s h c text "MODE" [name; sign_of add :: fs] u d -> nick_fits d -> settled d ->
  cf_operservermode (s_conf s) = false -> name <> [] -> ~ In NUL name -> legal_chan name -> the_channel s name ch k -> (forall r, ch_name k <> "+"%char :: r) -> (cl_type c = T_SERVER -> ~ local_name (ch_name k)) ->
  NoDup (ch_modes k) -> NoDup fs -> incl fs flag_letters -> (List.length (ch_modes k) + List.length fs <= 20)%nat ->
  (cl_type c = T_USER -> inside s u d ch /\ forall x, In x fs -> may_set_mode s u d ch add x) -> Parse_Request i text s = Ok b s' ->
  announced s s' i c d ch (ch_name k) (flags_msgs (ch_name k) add (changed k add fs)) /\
  exists k', exists_chan s' ch k' /\ forall x, In x (ch_modes k') <-> if memb x fs then add = true else In x (ch_modes k).
Proof. exact mode_flags. Qed.
Print Assumptions C28_mode_partial.
(** A MODE command which gives a member of a channel one of the privileges q, a, o, h, v, or takes it: the same, and
    nothing is told if the member had it (or had not) before. *)
Theorem C28_privilege_partial : forall s i h c text name add x nick u d g e ch k ms b s', live s -> undisturbed s -> client_of s i h c -> acts s h c text "MODE" [name; [sign_of add; x]; nick] u d -> nick_fits d -> settled d ->
  cf_operservermode (s_conf s) = false -> name <> [] -> ~ In NUL name -> legal_chan name -> the_channel s name ch k -> (forall r, ch_name k <> "+"%char :: r) -> (cl_type c = T_SERVER -> ~ local_name (ch_name k)) ->
  the_client s nick g e -> nick_fits e -> modes_on s g ch ms -> (List.length ms < 20)%nat -> In x (B "qaohv") ->
  (cl_type c = T_USER -> inside s u d ch /\ may_set_priv s u d ch x) -> Parse_Request i text s = Ok b s' ->
  announced s s' i c d ch (ch_name k) (if Bool.eqb (memb x ms) add then [] else priv_msgs (ch_name k) add x (cl_id e)) /\
  exists ms', modes_on s' g ch ms' /\ forall y, In y ms' <-> if Ascii.eqb y x then add = true else In y ms.
Proof. exact mode_priv. Qed.
Print Assumptions C28_privilege_partial.
(** A MODE command which puts the mask [m] (see C04 for what is made of the parameter [p]) on the list of bans,
    exceptions or invitations of a channel, or takes it off: if it is not there (or not) already, exactly this is told,
    to everybody as above; otherwise nothing. (For local channels see C29_lists_refuted.) *)
Theorem C28_list_partial : forall s i h c text name add x p u d ch k b s', live s -> undisturbed s -> client_of s i h c -> acts s h c text "MODE" [name; [sign_of add; x]; p] u d -> nick_fits d -> settled d ->
  name <> [] -> ~ In NUL name -> legal_chan name -> the_channel s name ch k -> (forall r, ch_name k <> "+"%char :: r) -> ~ local_name (ch_name k) -> In x (B "beI") ->
  (cl_type c = T_USER -> inside s u d ch /\ half_or_mighty s u d ch /\ (entries k < 50)%nat) -> Parse_Request i text s = Ok b s' ->
  let m := Lists_MakeMask p MASK_LEN in
  (if add then has_mask (list_at x k) m else ~ has_mask (list_at x k) m) /\ announced s s' i c d ch (ch_name k) [] /\ exists_chan s' ch k \/
  (if add then ~ has_mask (list_at x k) m else has_mask (list_at x k) m) /\ announced s s' i c d ch (ch_name k) [list_text (ch_name k) add x m] /\
  exists k', exists_chan s' ch k' /\ (has_mask (list_at x k') m <-> add = true) /\ (forall m', ~ same_name m' m -> (has_mask (list_at x k') m' <-> has_mask (list_at x k) m')) /\ (forall y, In y (B "beI") -> y <> x -> list_at y k' = list_at y k).
Proof. exact mode_list. Qed.
Print Assumptions C28_list_partial.
(** A MODE command which sets the key or the limit of a channel *)
Theorem C28_value_partial : forall s i h c text name x a v u d ch k b s', live s -> undisturbed s -> client_of s i h c -> acts s h c text "MODE" [name; ["+"%char; x]; a] u d -> nick_fits d -> settled d ->
  cf_operservermode (s_conf s) = false -> name <> [] -> ~ In NUL name -> legal_chan name -> the_channel s name ch k -> (forall r, ch_name k <> "+"%char :: r) -> (cl_type c = T_SERVER -> ~ local_name (ch_name k)) ->
  NoDup (ch_modes k) -> (List.length (ch_modes k) < 19)%nat -> sets_value x a v ->
  (cl_type c = T_USER -> inside s u d ch /\ half_or_mighty s u d ch) -> Parse_Request i text s = Ok b s' ->
  announced s s' i c d ch (ch_name k) [value_text (ch_name k) x v] /\
  exists k', exists_chan s' ch k' /\ In x (ch_modes k') /\ (forall y, y <> x -> (In y (ch_modes k') <-> In y (ch_modes k))) /\ ch_key k' = (if Ascii.eqb x "k" then a else ch_key k) /\ ch_maxusers k' = (if Ascii.eqb x "l" then atol a else ch_maxusers k).
Proof. exact mode_value. Qed.
Print Assumptions C28_value_partial.
(** and one which removes it *)
Theorem C28_unset_partial : forall s i h c text name x u d ch k b s', live s -> undisturbed s -> client_of s i h c -> acts s h c text "MODE" [name; ["-"%char; x]] u d -> nick_fits d -> settled d ->
  cf_operservermode (s_conf s) = false -> name <> [] -> ~ In NUL name -> legal_chan name -> the_channel s name ch k -> (forall r, ch_name k <> "+"%char :: r) -> (cl_type c = T_SERVER -> ~ local_name (ch_name k)) ->
  NoDup (ch_modes k) -> (List.length (ch_modes k) < 20)%nat -> In x (B "kl") ->
  (cl_type c = T_USER -> inside s u d ch /\ half_or_mighty s u d ch) -> Parse_Request i text s = Ok b s' ->
  announced s s' i c d ch (ch_name k) (if memb x (ch_modes k) then [drop_text (ch_name k) x] else []) /\
  exists k', exists_chan s' ch k' /\ forall y, In y (ch_modes k') <-> y <> x /\ In y (ch_modes k).
Proof. exact mode_drop. Qed.
Print Assumptions C28_unset_partial.
(** ** C29 *)
(** of such commands of users of this server for local channels no linked server is told anything *)
Theorem C29_mode_partial : forall s i h c text name add fs u d ch k b s', live s -> undisturbed s -> client_of s i h c -> acts s h c text "MODE" [name; sign_of add :: fs] u d -> nick_fits d -> settled d ->
  cf_operservermode (s_conf s) = false -> name <> [] -> ~ In NUL name -> legal_chan name -> the_channel s name ch k -> cl_type c = T_USER -> local_name (ch_name k) ->
  NoDup (ch_modes k) -> NoDup fs -> incl fs flag_letters -> (List.length (ch_modes k) + List.length fs <= 20)%nat ->
  inside s u d ch -> (forall x, In x fs -> may_set_mode s u d ch add x) -> Parse_Request i text s = Ok b s' -> to_no_server s s'.
Proof.
  intros s i h c text name add fs u d ch k b s' L U C AC NF SD OM NE NN LC TC TU LO H1 H2 H3 H4 H5 H6 H.
  exact (proj1 (proj2 (proj1 (mode_flags s i h c text name add fs u d ch k b s' L U C AC NF SD OM NE NN LC TC ltac:(intros r E; destruct LO as [r' E']; congruence) ltac:(congruence) H1 H2 H3 H4 (fun _ => conj H5 H6) H))) LO).
Qed.
Print Assumptions C29_mode_partial.
Theorem C29_privilege_partial : forall s i h c text name add x nick u d g e ch k ms b s', live s -> undisturbed s -> client_of s i h c -> acts s h c text "MODE" [name; [sign_of add; x]; nick] u d -> nick_fits d -> settled d ->
  cf_operservermode (s_conf s) = false -> name <> [] -> ~ In NUL name -> legal_chan name -> the_channel s name ch k -> cl_type c = T_USER -> local_name (ch_name k) ->
  the_client s nick g e -> nick_fits e -> modes_on s g ch ms -> (List.length ms < 20)%nat -> In x (B "qaohv") ->
  inside s u d ch -> may_set_priv s u d ch x -> Parse_Request i text s = Ok b s' -> to_no_server s s'.
Proof.
  intros s i h c text name add x nick u d g e ch k ms b s' L U C AC NF SD OM NE NN LC TC TU LO H1 H2 H3 H4 H5 H6 H7 H.
  exact (proj1 (proj2 (proj1 (mode_priv s i h c text name add x nick u d g e ch k ms b s' L U C AC NF SD OM NE NN LC TC ltac:(intros r E; destruct LO as [r' E']; congruence) ltac:(congruence) H1 H2 H3 H4 H5 (fun _ => conj H6 H7) H))) LO).
Qed.
Print Assumptions C29_privilege_partial.
(** nor of key and limit *)
Theorem C29_value_partial : forall s i h c text name x a v u d ch k b s', live s -> undisturbed s -> client_of s i h c -> acts s h c text "MODE" [name; ["+"%char; x]; a] u d -> nick_fits d -> settled d ->
  cf_operservermode (s_conf s) = false -> name <> [] -> ~ In NUL name -> legal_chan name -> the_channel s name ch k -> cl_type c = T_USER -> local_name (ch_name k) ->
  NoDup (ch_modes k) -> (List.length (ch_modes k) < 19)%nat -> sets_value x a v ->
  inside s u d ch -> half_or_mighty s u d ch -> Parse_Request i text s = Ok b s' -> to_no_server s s'.
Proof.
  intros s i h c text name x a v u d ch k b s' L U C AC NF SD OM NE NN LC TC TU LO H1 H2 H3 H4 H5 H.
  exact (proj1 (proj2 (proj1 (mode_value s i h c text name x a v u d ch k b s' L U C AC NF SD OM NE NN LC TC ltac:(intros r E; destruct LO as [r' E']; congruence) ltac:(congruence) H1 H2 H3 (fun _ => conj H4 H5) H))) LO).
Qed.
Print Assumptions C29_value_partial.
Theorem C29_unset_partial : forall s i h c text name x u d ch k b s', live s -> undisturbed s -> client_of s i h c -> acts s h c text "MODE" [name; ["-"%char; x]] u d -> nick_fits d -> settled d ->
  cf_operservermode (s_conf s) = false -> name <> [] -> ~ In NUL name -> legal_chan name -> the_channel s name ch k -> cl_type c = T_USER -> local_name (ch_name k) ->
  NoDup (ch_modes k) -> (List.length (ch_modes k) < 20)%nat -> In x (B "kl") ->
  inside s u d ch -> half_or_mighty s u d ch -> Parse_Request i text s = Ok b s' -> to_no_server s s'.
Proof.
  intros s i h c text name x u d ch k b s' L U C AC NF SD OM NE NN LC TC TU LO H1 H2 H3 H4 H5 H.
  exact (proj1 (proj2 (proj1 (mode_drop s i h c text name x u d ch k b s' L U C AC NF SD OM NE NN LC TC ltac:(intros r E; destruct LO as [r' E']; congruence) ltac:(congruence) H1 H2 H3 (fun _ => conj H4 H5) H))) LO).
Qed.
Print Assumptions C29_unset_partial.
(** ** C31 *)
(** the line users are sent when a cloaked user changes the modes of a channel has his cloaked host name in the prefix *)
Theorem C31_mode_partial : forall s i h c text name add fs u d ch k b s' v, live s -> undisturbed s -> client_of s i h c -> acts s h c text "MODE" [name; sign_of add :: fs] u d -> nick_fits d -> In "x"%char (cl_modes d) -> cl_cloaked d = Some v ->
  cf_operservermode (s_conf s) = false -> name <> [] -> ~ In NUL name -> legal_chan name -> the_channel s name ch k -> (forall r, ch_name k <> "+"%char :: r) -> (cl_type c = T_SERVER -> ~ local_name (ch_name k)) ->
  NoDup (ch_modes k) -> NoDup fs -> incl fs flag_letters -> (List.length (ch_modes k) + List.length fs <= 20)%nat ->
  (cl_type c = T_USER -> inside s u d ch /\ forall x, In x fs -> may_set_mode s u d ch add x) -> Parse_Request i text s = Ok b s' ->
  forall j x, local_on s j ch x -> i <> j -> is_open s j = true -> written s s' j (map (line_with d v) (flags_msgs (ch_name k) add (changed k add fs))).
Proof.
  intros s i h c text name add fs u d ch k b s' v L U C AC NF X CL OM NE NN LC TC NP NLo H1 H2 H3 H4 H5 H j x LO NJ OP.
  destruct (mode_flags s i h c text name add fs u d ch k b s' L U C AC NF ltac:(intros _ E; congruence) OM NE NN LC TC NP NLo H1 H2 H3 H4 H5 H) as [(_ & _ & R & _) _].
  rewrite (map_ext _ _ (fun t => eq_sym (cloaked_line s d x t v ltac:(destruct LO as (y & _ & _ & _ & T); exact T) X CL))). apply R; auto.
Qed.
Print Assumptions C31_mode_partial.
Theorem C31_privilege_partial : forall s i h c text name add x nick u d g e ch k ms b s' v, live s -> undisturbed s -> client_of s i h c -> acts s h c text "MODE" [name; [sign_of add; x]; nick] u d -> nick_fits d -> In "x"%char (cl_modes d) -> cl_cloaked d = Some v ->
  cf_operservermode (s_conf s) = false -> name <> [] -> ~ In NUL name -> legal_chan name -> the_channel s name ch k -> (forall r, ch_name k <> "+"%char :: r) -> (cl_type c = T_SERVER -> ~ local_name (ch_name k)) ->
  the_client s nick g e -> nick_fits e -> modes_on s g ch ms -> (List.length ms < 20)%nat -> In x (B "qaohv") ->
  (cl_type c = T_USER -> inside s u d ch /\ may_set_priv s u d ch x) -> Parse_Request i text s = Ok b s' ->
  forall j y, local_on s j ch y -> i <> j -> is_open s j = true -> written s s' j (map (line_with d v) (if Bool.eqb (memb x ms) add then [] else priv_msgs (ch_name k) add x (cl_id e))).
Proof.
  intros s i h c text name add x nick u d g e ch k ms b s' v L U C AC NF X CL OM NE NN LC TC NP NLo H1 H2 H3 H4 H5 H6 H j y LO NJ OP.
  destruct (mode_priv s i h c text name add x nick u d g e ch k ms b s' L U C AC NF ltac:(intros _ E; congruence) OM NE NN LC TC NP NLo H1 H2 H3 H4 H5 H6 H) as [(_ & _ & R & _) _].
  rewrite (map_ext _ _ (fun t => eq_sym (cloaked_line s d y t v ltac:(destruct LO as (z & _ & _ & _ & T); exact T) X CL))). apply R; auto.
Qed.
Print Assumptions C31_privilege_partial.
Theorem C31_list_partial : forall s i h c text name add x p u d ch k b s' w, live s -> undisturbed s -> client_of s i h c -> acts s h c text "MODE" [name; [sign_of add; x]; p] u d -> nick_fits d -> In "x"%char (cl_modes d) -> cl_cloaked d = Some w ->
  name <> [] -> ~ In NUL name -> legal_chan name -> the_channel s name ch k -> (forall r, ch_name k <> "+"%char :: r) -> ~ local_name (ch_name k) -> In x (B "beI") ->
  (cl_type c = T_USER -> inside s u d ch /\ half_or_mighty s u d ch /\ (entries k < 50)%nat) -> Parse_Request i text s = Ok b s' ->
  forall j y, local_on s j ch y -> i <> j -> is_open s j = true -> written s s' j [] \/ written s s' j [line_with d w (list_text (ch_name k) add x (Lists_MakeMask p MASK_LEN))].
Proof.
  intros s i h c text name add x p u d ch k b s' w L U C AC NF X CL NE NN LC TC NP NLo H1 H2 H j y LO NJ OP.
  assert (E : line_from s d y (list_text (ch_name k) add x (Lists_MakeMask p MASK_LEN)) = line_with d w (list_text (ch_name k) add x (Lists_MakeMask p MASK_LEN))) by (apply (cloaked_line s d y _ w); auto; destruct LO as (z & _ & _ & _ & T); exact T). rewrite <- E.
  destruct (mode_list s i h c text name add x p u d ch k b s' L U C AC NF ltac:(intros _ E1; congruence) NE NN LC TC NP NLo H1 H2 H) as [(_ & (_ & _ & R & _) & _)|(_ & (_ & _ & R & _) & _)]; [left|right]; exact (R j y LO NJ OP).
Qed.
Print Assumptions C31_list_partial.
Theorem C31_value_partial : forall s i h c text name x a v u d ch k b s' w, live s -> undisturbed s -> client_of s i h c -> acts s h c text "MODE" [name; ["+"%char; x]; a] u d -> nick_fits d -> In "x"%char (cl_modes d) -> cl_cloaked d = Some w ->
  cf_operservermode (s_conf s) = false -> name <> [] -> ~ In NUL name -> legal_chan name -> the_channel s name ch k -> (forall r, ch_name k <> "+"%char :: r) -> (cl_type c = T_SERVER -> ~ local_name (ch_name k)) ->
  NoDup (ch_modes k) -> (List.length (ch_modes k) < 19)%nat -> sets_value x a v ->
  (cl_type c = T_USER -> inside s u d ch /\ half_or_mighty s u d ch) -> Parse_Request i text s = Ok b s' ->
  forall j y, local_on s j ch y -> i <> j -> is_open s j = true -> written s s' j [line_with d w (value_text (ch_name k) x v)].
Proof.
  intros s i h c text name x a v u d ch k b s' w L U C AC NF X CL OM NE NN LC TC NP NLo H1 H2 H3 H4 H j y LO NJ OP.
  assert (E : line_from s d y (value_text (ch_name k) x v) = line_with d w (value_text (ch_name k) x v)) by (apply (cloaked_line s d y _ w); auto; destruct LO as (z & _ & _ & _ & T); exact T). rewrite <- E.
  destruct (mode_value s i h c text name x a v u d ch k b s' L U C AC NF ltac:(intros _ E1; congruence) OM NE NN LC TC NP NLo H1 H2 H3 H4 H) as [(_ & _ & R & _) _]. exact (R j y LO NJ OP).
Qed.
Print Assumptions C31_value_partial.

(** ** examples *)
Definition legal_chan_b (n : bytes) : bool := match n with [] => true | c :: _ => memb c (B "#&+") end && Nat.ltb (List.length n) 51 && forallb (fun c => negb (memb c [" "; ","; ":"; "007"]%char)) n.
Lemma legal_chan_ok : forall n, legal_chan_b n = true -> legal_chan n.
Proof.
  intros n H. unfold legal_chan_b in H. rewrite !andb_true_iff in H. destruct H as [[H1 H2] H3]. apply Nat.ltb_lt in H2. split; [intros c r ->; apply memb_In; exact H1|]. split; auto.
  intros c I J. rewrite forallb_forall in H3. specialize (H3 c I). apply negb_true_iff in H3. apply memb_In in J. congruence.
Qed.
Definition nodup_b (l : bytes) : bool := if list_eq_dec ascii_dec (nodup ascii_dec l) l then true else false.
Lemma nodup_ok : forall l, nodup_b l = true -> NoDup l.
Proof. intros l H. unfold nodup_b in H. destruct (list_eq_dec _ _ _) as [E|]; [|discriminate H]. rewrite <- E. apply NoDup_nodup. Qed.
Definition incl_b (l m : bytes) : bool := forallb (fun x => memb x m) l.
Lemma incl_ok : forall l m, incl_b l m = true -> incl l m.
Proof. intros l m H x I. unfold incl_b in H. rewrite forallb_forall in H. apply memb_In, H, I. Qed.
(** the channel, as far as [C28_mode_partial] asks *)
Definition flag_chan (s : state) (name : bytes) (ch : chandle) (fs : bytes) (k : channel) : bool :=
  the_channel_b s name ch k && nodup_b (ch_modes k) && Nat.leb (List.length (ch_modes k) + List.length fs) 20 && negb (Ascii.eqb (hd0 (ch_name k)) "+").
Lemma flag_chan_ok : forall s name ch fs k, flag_chan s name ch fs k = true -> the_channel_b s name ch k = true /\ NoDup (ch_modes k) /\ (List.length (ch_modes k) + List.length fs <= 20)%nat /\ (forall r, ch_name k <> "+"%char :: r).
Proof. intros s name ch fs k H. unfold flag_chan in H. rewrite !andb_true_iff, negb_true_iff in H. destruct H as [[[H1 H2] H3] H4]. split; auto. split; [apply nodup_ok; auto|]. split; [apply Nat.leb_le; auto|]. intros r E. rewrite E in H4. discriminate H4. Qed.
(** alice, the operator of #Test, sets m and n; n is set already *)
Notation st_mode := (final conf0 [peer; peer2] (two_users ++ Sessions.link ++ link2 ++ [E_Data 5 (crlf "MODE #test +n"); E_Time 2030 7])).
Lemma st_mode_reachable : reachable st_mode.
Proof. apply reach_final; [exact conf0_ok|vm_compute; reflexivity]. Qed.
Example C28_mode_nonvacuous : exists c k s', let alice := named "alice" st_mode in let ch := cnamed "#Test" st_mode in
  live st_mode /\ undisturbed st_mode /\ client_of st_mode 5 alice c /\ acts st_mode alice c (B "MODE #TEST +mns") "MODE" [B "#TEST"; sign_of true :: B "mns"] alice c /\ nick_fits c /\ settled c /\ cf_operservermode (s_conf st_mode) = false /\ ~ In NUL (B "#TEST") /\
  legal_chan (B "#TEST") /\ the_channel st_mode (B "#TEST") ch k /\ (forall r, ch_name k <> "+"%char :: r) /\ NoDup (ch_modes k) /\ NoDup (B "mns") /\ incl (B "mns") flag_letters /\ (List.length (ch_modes k) + List.length (B "mns") <= 20)%nat /\
  cl_type c = T_USER /\ inside st_mode alice c ch /\ (forall x, In x (B "mns") -> may_set_mode st_mode alice c ch true x) /\ (exists x, link st_mode 7 x) /\ (exists x, link st_mode 8 x) /\ changed k true (B "mns") = B "ms" /\
  Parse_Request 5 (B "MODE #TEST +mns") st_mode = Ok CONNECTED s' /\ sends 7 ":alice MODE #Test +ms" s' = true /\ sends 8 ":alice MODE #Test +ms" s' = true /\ sends 6 ":alice!~alice@1.2.3.4 MODE #Test +ms" s' = true /\ sends 5 ":alice!~alice@1.2.3.4 MODE #Test +ms" s' = true.
Proof.
  destruct (serves_ok st_mode 5 (named "alice" st_mode) plain_user) as (c & C & T); [vm_compute; reflexivity|]. apply plain_user_ok in T. destruct T as (T & T2 & T3).
  destruct (chas_ok st_mode (cnamed "#Test" st_mode) (fun k => flag_chan st_mode (B "#TEST") (cnamed "#Test" st_mode) (B "mns") k && beq (changed k true (B "mns")) (B "ms"))) as (k & K & P); [vm_compute; reflexivity|]. apply andb_true_iff in P. destruct P as [P Q]. apply beq_eq in Q. apply flag_chan_ok in P. destruct P as (P1 & P2 & P3 & P4).
  destruct (doing_ok _ (Parse_Request 5 (B "MODE #TEST +mns")) st_mode (fun b s => b && sends 7 ":alice MODE #Test +ms" s && sends 8 ":alice MODE #Test +ms" s && sends 6 ":alice!~alice@1.2.3.4 MODE #Test +ms" s && sends 5 ":alice!~alice@1.2.3.4 MODE #Test +ms" s)) as (b & s' & H & R); [vm_compute; reflexivity|].
  rewrite !andb_true_iff in R. destruct R as [[[[R1 R2] R3] R4] R5].
  assert (OP : has_priv st_mode (named "alice" st_mode) (cnamed "#Test" st_mode) "o") by (apply has_priv_ok; vm_compute; reflexivity).
  exists c, k, s'. cbv zeta. split; [apply V_reach; exact st_mode_reachable|]. split; [apply calm_ok; vm_compute; reflexivity|]. split; [exact C|]. split; [left; split; [exact T|]; split; [apply orders_b; vm_compute; reflexivity|auto]|]. split; [exact T3|]. split; [exact T2|]. split; [vm_compute; reflexivity|].
  split; [apply not_In_b; vm_compute; reflexivity|]. split; [apply legal_chan_ok; vm_compute; reflexivity|]. split; [apply the_channel_ok; auto|]. split; [exact P4|]. split; [exact P2|]. split; [apply nodup_ok; vm_compute; reflexivity|]. split; [apply incl_ok; vm_compute; reflexivity|]. split; [exact P3|].
  split; [exact T|]. split; [right; apply on_b_ok; vm_compute; reflexivity|]. split; [intros x [<- |[<- |[<- |[]]]]; [right; left|right; left|right; right; left]; (split; [cbn; tauto|]); first [right; right; exact OP|exists "o"%char; split; [cbn; tauto|exact OP]]|].
  split; [apply (link_is_ok _ _ (named "hub.example.net" st_mode)); vm_compute; reflexivity|]. split; [apply (link_is_ok _ _ (named "other.example.net" st_mode)); vm_compute; reflexivity|]. split; [exact Q|]. split; [rewrite H, R1; reflexivity|auto].
Qed.
(** carol, who is behind the server on connection 7, gives bob voice *)
Example C28_privilege_nonvacuous : exists c d e k s', let hub := named "hub.example.net" st_two in let carol := named "carol" st_two in let bob := named "bob" st_two in let ch := cnamed "#Test" st_two in
  live st_two /\ undisturbed st_two /\ client_of st_two 7 hub c /\ acts st_two hub c (B ":carol MODE #test +v bob") "MODE" [B "#test"; [sign_of true; "v"%char]; B "bob"] carol d /\ nick_fits d /\ settled d /\
  cf_operservermode (s_conf st_two) = false /\ ~ In NUL (B "#test") /\ legal_chan (B "#test") /\ the_channel st_two (B "#test") ch k /\ (forall r, ch_name k <> "+"%char :: r) /\ cl_type c = T_SERVER /\ ~ local_name (ch_name k) /\
  the_client st_two (B "bob") bob e /\ nick_fits e /\ modes_on st_two bob ch [] /\ (exists x, link st_two 7 x) /\ (exists x, link st_two 8 x) /\
  Parse_Request 7 (B ":carol MODE #test +v bob") st_two = Ok CONNECTED s' /\ modes_on s' bob ch (B "v") /\
  sends 8 ":carol MODE #Test +v bob" s' = true /\ sends 7 ":carol MODE #Test +v bob" s' = false /\ sends 6 ":carol!carol@host.example.org MODE #Test +v bob" s' = true /\ sends 5 ":carol!carol@host.example.org MODE #Test +v bob" s' = true.
Proof.
  destruct (serves_ok st_two 7 (named "hub.example.net" st_two) (type_b T_SERVER)) as (c & C & T); [vm_compute; reflexivity|]. apply type_b_ok in T.
  destruct (has_ok st_two (named "carol" st_two) plain_user) as (d & D1 & D2); [vm_compute; reflexivity|]. apply plain_user_ok in D2. destruct D2 as (D2 & D3 & D4).
  destruct (has_ok st_two (named "bob" st_two) plain_user) as (e & E1 & E2); [vm_compute; reflexivity|]. apply plain_user_ok in E2. destruct E2 as (E2 & E3 & E4).
  destruct (chas_ok st_two (cnamed "#Test" st_two) (fun k => flag_chan st_two (B "#test") (cnamed "#Test" st_two) [] k && negb (Ascii.eqb (hd0 (ch_name k)) "&"))) as (k & K & P); [vm_compute; reflexivity|]. rewrite !andb_true_iff, negb_true_iff in P. destruct P as [P P2]. apply flag_chan_ok in P. destruct P as (P1 & _ & _ & P4).
  destruct (doing_ok _ (Parse_Request 7 (B ":carol MODE #test +v bob")) st_two (fun b s => b && modes_b (named "bob" st_two) (cnamed "#Test" st_two) (B "v") s && sends 8 ":carol MODE #Test +v bob" s && negb (sends 7 ":carol MODE #Test +v bob" s) &&
     sends 6 ":carol!carol@host.example.org MODE #Test +v bob" s && sends 5 ":carol!carol@host.example.org MODE #Test +v bob" s)) as (b & s' & H & R); [vm_compute; reflexivity|]. rewrite !andb_true_iff, !negb_true_iff in R. destruct R as [[[[[R1 R2] R3] R4] R5] R6].
  exists c, d, e, k, s'. cbv zeta. split; [apply V_reach; exact st_two_reachable|]. split; [apply calm_ok; vm_compute; reflexivity|]. split; [exact C|].
  split; [apply acts_ok; [apply C|exact D1|vm_compute; reflexivity]|]. split; [exact D4|]. split; [exact D3|]. split; [vm_compute; reflexivity|]. split; [apply not_In_b; vm_compute; reflexivity|]. split; [apply legal_chan_ok; vm_compute; reflexivity|]. split; [apply the_channel_ok; auto|]. split; [exact P4|]. split; [exact T|]. split; [intro X; apply local_hd in X; congruence|].
  split; [apply the_client_ok; [exact E1|vm_compute; reflexivity]|]. split; [exact E4|]. split; [apply modes_ok; vm_compute; reflexivity|].
  split; [apply (link_is_ok _ _ (named "hub.example.net" st_two)); vm_compute; reflexivity|]. split; [apply (link_is_ok _ _ (named "other.example.net" st_two)); vm_compute; reflexivity|].
  split; [rewrite H, R1; reflexivity|]. split; [apply modes_ok; exact R2|]. auto.
Qed.
(** alice, the operator of the local channel, sets a mode and gives bob a privilege: the servers are sent nothing *)
Example C29_mode_nonvacuous : exists c k e s' s'', let alice := named "alice" st_loc in let bob := named "bob" st_loc in let ch := cnamed "&loc" st_loc in
  live st_loc /\ undisturbed st_loc /\ client_of st_loc 5 alice c /\ acts st_loc alice c (B "MODE &loc -t") "MODE" [B "&loc"; sign_of false :: B "t"] alice c /\ acts st_loc alice c (B "MODE &loc +o bob") "MODE" [B "&loc"; [sign_of true; "o"%char]; B "bob"] alice c /\ nick_fits c /\ settled c /\
  cf_operservermode (s_conf st_loc) = false /\ ~ In NUL (B "&loc") /\ legal_chan (B "&loc") /\ the_channel st_loc (B "&loc") ch k /\ local_name (ch_name k) /\ NoDup (ch_modes k) /\ incl (B "t") flag_letters /\ (List.length (ch_modes k) + List.length (B "t") <= 20)%nat /\
  cl_type c = T_USER /\ inside st_loc alice c ch /\ (forall x, In x (B "t") -> may_set_mode st_loc alice c ch false x) /\ may_set_priv st_loc alice c ch "o" /\ the_client st_loc (B "bob") bob e /\ nick_fits e /\ modes_on st_loc bob ch [] /\ (exists x, link st_loc 7 x) /\
  Parse_Request 5 (B "MODE &loc -t") st_loc = Ok CONNECTED s' /\ more 7 0 st_loc s' = true /\ Parse_Request 5 (B "MODE &loc +o bob") st_loc = Ok CONNECTED s'' /\ more 7 0 st_loc s'' = true /\ sends 6 ":alice!~alice@1.2.3.4 MODE &loc +o bob" s'' = true.
Proof.
  destruct (serves_ok st_loc 5 (named "alice" st_loc) plain_user) as (c & C & T); [vm_compute; reflexivity|]. apply plain_user_ok in T. destruct T as (T & T2 & T3).
  destruct (has_ok st_loc (named "bob" st_loc) plain_user) as (e & E1 & E2); [vm_compute; reflexivity|]. apply plain_user_ok in E2. destruct E2 as (E2 & E3 & E4).
  destruct (chas_ok st_loc (cnamed "&loc" st_loc) (fun k => flag_chan st_loc (B "&loc") (cnamed "&loc" st_loc) (B "t") k && Ascii.eqb (hd0 (ch_name k)) "&")) as (k & K & P); [vm_compute; reflexivity|]. apply andb_true_iff in P. destruct P as [P Q]. apply flag_chan_ok in P. destruct P as (P1 & P2 & P3 & P4).
  destruct (doing_ok _ (Parse_Request 5 (B "MODE &loc -t")) st_loc (fun b s => b && more 7 0 st_loc s)) as (b & s' & H & R); [vm_compute; reflexivity|]. apply andb_true_iff in R. destruct R as [R1 R2].
  destruct (doing_ok _ (Parse_Request 5 (B "MODE &loc +o bob")) st_loc (fun b s => b && more 7 0 st_loc s && sends 6 ":alice!~alice@1.2.3.4 MODE &loc +o bob" s)) as (b2 & s'' & H2 & R'); [vm_compute; reflexivity|]. rewrite !andb_true_iff in R'. destruct R' as [[R3 R4] R5].
  assert (OP : has_priv st_loc (named "alice" st_loc) (cnamed "&loc" st_loc) "o") by (apply has_priv_ok; vm_compute; reflexivity).
  exists c, k, e, s', s''. cbv zeta. split; [apply V_reach; exact st_loc_reachable|]. split; [apply calm_ok; vm_compute; reflexivity|]. split; [exact C|]. split; [left; split; [exact T|]; split; [apply orders_b; vm_compute; reflexivity|auto]|]. split; [left; split; [exact T|]; split; [apply orders_b; vm_compute; reflexivity|auto]|]. split; [exact T3|]. split; [exact T2|]. split; [vm_compute; reflexivity|].
  split; [apply not_In_b; vm_compute; reflexivity|]. split; [apply legal_chan_ok; vm_compute; reflexivity|]. split; [apply the_channel_ok; auto|]. split; [apply local_hd; exact Q|]. split; [exact P2|]. split; [apply incl_ok; vm_compute; reflexivity|]. split; [exact P3|]. split; [exact T|]. split; [right; apply on_b_ok; vm_compute; reflexivity|].
  split; [intros x [<- |[]]; right; left; split; [cbn; tauto|exists "o"%char; split; [cbn; tauto|exact OP]]|]. split; [right; right; left; split; [cbn; tauto|right; right; exact OP]|].
  split; [apply the_client_ok; [exact E1|vm_compute; reflexivity]|]. split; [exact E4|]. split; [apply modes_ok; vm_compute; reflexivity|]. split; [apply (link_is_ok _ _ (named "hub.example.net" st_loc)); vm_compute; reflexivity|].
  split; [rewrite H, R1; reflexivity|]. split; [exact R2|]. split; [rewrite H2, R3; reflexivity|auto].
Qed.
(** bob, who is cloaked and has been made an operator of #Test, sets a mode: alice sees his cloaked host name *)
Notation st_cloak3 := (final conf0 [peer] (two_users ++ Sessions.link ++ [E_Time 2020 7; E_Data 7 (crlf ":hub.example.net MODE bob +x"); E_Time 2030 7; E_Data 5 (crlf "MODE #Test +o bob"); E_Time 2040 7])).
Lemma st_cloak3_reachable : reachable st_cloak3.
Proof. apply reach_final; [exact conf0_ok|vm_compute; reflexivity]. Qed.
Example C31_mode_nonvacuous : exists c v k s', let bob := named "bob" st_cloak3 in let ch := cnamed "#Test" st_cloak3 in
  live st_cloak3 /\ undisturbed st_cloak3 /\ client_of st_cloak3 6 bob c /\ acts st_cloak3 bob c (B "MODE #Test +m") "MODE" [B "#Test"; sign_of true :: B "m"] bob c /\ nick_fits c /\ In "x"%char (cl_modes c) /\ cl_cloaked c = Some v /\ v <> cl_host c /\
  cf_operservermode (s_conf st_cloak3) = false /\ ~ In NUL (B "#Test") /\ legal_chan (B "#Test") /\ the_channel st_cloak3 (B "#Test") ch k /\ (forall r, ch_name k <> "+"%char :: r) /\ NoDup (ch_modes k) /\ incl (B "m") flag_letters /\ (List.length (ch_modes k) + List.length (B "m") <= 20)%nat /\
  cl_type c = T_USER /\ inside st_cloak3 bob c ch /\ (forall x, In x (B "m") -> may_set_mode st_cloak3 bob c ch true x) /\
  Parse_Request 6 (B "MODE #Test +m") st_cloak3 = Ok CONNECTED s' /\ existsb (fun p => Nat.eqb (fst p) 5 && beq (snd p) (line_with c v (B "MODE #Test +m"))) (s_out s') = true.
Proof.
  destruct (serves_ok st_cloak3 6 (named "bob" st_cloak3) (fun c => type_b T_USER c && memb "x" (cl_modes c) && negb (beq (cl_id c) []) && Nat.ltb (List.length (cl_id c)) 32 && match cl_cloaked c with Some v => negb (beq v (cl_host c)) &&
      doing (Parse_Request 6 (B "MODE #Test +m")) st_cloak3 (fun b s => b && existsb (fun p => Nat.eqb (fst p) 5 && beq (snd p) (line_with c v (B "MODE #Test +m"))) (s_out s)) | None => false end)) as (c & C & T); [vm_compute; reflexivity|].
  rewrite !andb_true_iff, negb_true_iff in T. destruct T as [[[[T1 T2] T3] T4] T5]. apply type_b_ok in T1. destruct (cl_cloaked c) as [v|] eqn:CV; [|discriminate T5]. rewrite andb_true_iff, negb_true_iff in T5. destruct T5 as [T5 T7].
  apply doing_ok in T7. destruct T7 as (b & s' & H & R). rewrite !andb_true_iff in R. destruct R as [R1 R3].
  destruct (chas_ok st_cloak3 (cnamed "#Test" st_cloak3) (fun k => flag_chan st_cloak3 (B "#Test") (cnamed "#Test" st_cloak3) (B "m") k)) as (k & K & P); [vm_compute; reflexivity|]. apply flag_chan_ok in P. destruct P as (P1 & P2 & P3 & P4).
  exists c, v, k, s'. cbv zeta. split; [apply V_reach; exact st_cloak3_reachable|]. split; [apply calm_ok; vm_compute; reflexivity|]. split; [exact C|]. split; [left; split; [exact T1|]; split; [apply orders_b; vm_compute; reflexivity|auto]|].
  split; [split; [intro X; rewrite X in T3; discriminate T3|apply Nat.ltb_lt; exact T4]|]. split; [apply Bytes.memb_In; exact T2|]. split; [exact CV|]. split; [intros ->; rewrite (proj2 (beq_eq _ _) eq_refl) in T5; discriminate T5|]. split; [vm_compute; reflexivity|].
  split; [apply not_In_b; vm_compute; reflexivity|]. split; [apply legal_chan_ok; vm_compute; reflexivity|]. split; [apply the_channel_ok; auto|]. split; [exact P4|]. split; [exact P2|]. split; [apply incl_ok; vm_compute; reflexivity|]. split; [exact P3|]. split; [exact T1|]. split; [right; apply on_b_ok; vm_compute; reflexivity|].
  split; [intros x [<- |[]]; right; left; split; [cbn; tauto|exists "o"%char; split; [cbn; tauto|apply has_priv_ok; vm_compute; reflexivity]]|]. split; [rewrite H, R1; reflexivity|]. exact R3.
Qed.

(** alice bans somebody from #Test, and sets a key; the servers and bob are told *)
Example C28_list_nonvacuous : exists c k s' s'' s3, let alice := named "alice" st_mode in let ch := cnamed "#Test" st_mode in
  acts st_mode alice c (B "MODE #TEST +b eve") "MODE" [B "#TEST"; [sign_of true; "b"%char]; B "eve"] alice c /\ acts st_mode alice c (B "MODE #TEST +k Tee") "MODE" [B "#TEST"; ["+"%char; "k"%char]; B "Tee"] alice c /\ acts st_mode alice c (B "MODE #TEST +l 007") "MODE" [B "#TEST"; ["+"%char; "l"%char]; B "007"] alice c /\
  client_of st_mode 5 alice c /\ nick_fits c /\ settled c /\ the_channel st_mode (B "#TEST") ch k /\ (forall r, ch_name k <> "+"%char :: r) /\ ~ local_name (ch_name k) /\ NoDup (ch_modes k) /\ (List.length (ch_modes k) < 19)%nat /\ (entries k < 50)%nat /\ half_or_mighty st_mode alice c ch /\
  sets_value "k" (B "Tee") (B "Tee") /\ sets_value "l" (B "007") (B "7") /\ ~ has_mask (list_at "b" k) (B "eve!*@*") /\ Lists_MakeMask (B "eve") MASK_LEN = B "eve!*@*" /\
  Parse_Request 5 (B "MODE #TEST +b eve") st_mode = Ok CONNECTED s' /\ sends 7 ":alice MODE #Test +b eve!*@*" s' = true /\ sends 8 ":alice MODE #Test +b eve!*@*" s' = true /\ sends 6 ":alice!~alice@1.2.3.4 MODE #Test +b eve!*@*" s' = true /\
  Parse_Request 5 (B "MODE #TEST +k Tee") st_mode = Ok CONNECTED s'' /\ sends 7 ":alice MODE #Test +k Tee" s'' = true /\ sends 6 ":alice!~alice@1.2.3.4 MODE #Test +k Tee" s'' = true /\
  Parse_Request 5 (B "MODE #TEST +l 007") st_mode = Ok CONNECTED s3 /\ sends 7 ":alice MODE #Test +l 7" s3 = true /\ sends 6 ":alice!~alice@1.2.3.4 MODE #Test +l 7" s3 = true.
Proof.
  destruct (serves_ok st_mode 5 (named "alice" st_mode) plain_user) as (c & C & T); [vm_compute; reflexivity|]. apply plain_user_ok in T. destruct T as (T & T2 & T3).
  destruct (chas_ok st_mode (cnamed "#Test" st_mode) (fun k => flag_chan st_mode (B "#TEST") (cnamed "#Test" st_mode) [] k && negb (Ascii.eqb (hd0 (ch_name k)) "&") && Nat.ltb (List.length (ch_modes k)) 19 && Nat.ltb (entries k) 50 && match ch_bans k with [] => true | _ => false end)) as (k & K & P); [vm_compute; reflexivity|].
  rewrite !andb_true_iff, negb_true_iff in P. destruct P as [[[[P Q1] Q2] Q3] Q4]. apply flag_chan_ok in P. destruct P as (P1 & P2 & P3 & P4). apply Nat.ltb_lt in Q2, Q3.
  destruct (doing_ok _ (Parse_Request 5 (B "MODE #TEST +b eve")) st_mode (fun b s => b && sends 7 ":alice MODE #Test +b eve!*@*" s && sends 8 ":alice MODE #Test +b eve!*@*" s && sends 6 ":alice!~alice@1.2.3.4 MODE #Test +b eve!*@*" s)) as (b & s' & H & R); [vm_compute; reflexivity|]. rewrite !andb_true_iff in R. destruct R as [[[R1 R2] R3] R4].
  destruct (doing_ok _ (Parse_Request 5 (B "MODE #TEST +k Tee")) st_mode (fun b s => b && sends 7 ":alice MODE #Test +k Tee" s && sends 6 ":alice!~alice@1.2.3.4 MODE #Test +k Tee" s)) as (b2 & s'' & H2 & Z); [vm_compute; reflexivity|]. rewrite !andb_true_iff in Z. destruct Z as [[Z1 Z2] Z3].
  destruct (doing_ok _ (Parse_Request 5 (B "MODE #TEST +l 007")) st_mode (fun b s => b && sends 7 ":alice MODE #Test +l 7" s && sends 6 ":alice!~alice@1.2.3.4 MODE #Test +l 7" s)) as (b3 & s3 & H3 & Y); [vm_compute; reflexivity|]. rewrite !andb_true_iff in Y. destruct Y as [[Y1 Y2] Y3].
  assert (OP : has_priv st_mode (named "alice" st_mode) (cnamed "#Test" st_mode) "o") by (apply has_priv_ok; vm_compute; reflexivity).
  exists c, k, s', s'', s3. cbv zeta. do 3 (split; [left; split; [exact T|]; split; [apply orders_b; vm_compute; reflexivity|auto]|]). split; [exact C|]. split; [exact T3|]. split; [exact T2|]. split; [apply the_channel_ok; auto|]. split; [exact P4|]. split; [intro X; apply local_hd in X; congruence|]. split; [exact P2|]. split; [exact Q2|]. split; [exact Q3|].
  split; [right; exists "o"%char; split; [cbn; tauto|exact OP]|]. split; [left; split; [reflexivity|]; split; [discriminate|]; split; [apply not_In_b; reflexivity|]; split; [cbn; lia|reflexivity]|]. split; [right; split; [reflexivity|]; split; [split; vm_compute; reflexivity|vm_compute; reflexivity]|].
  split; [intros (e & I & _); unfold list_at in I; cbv [Ascii.eqb Bool.eqb] in I; destruct (ch_bans k); [destruct I|discriminate Q4]|]. split; [vm_compute; reflexivity|].
  split; [rewrite H, R1; reflexivity|]. split; [exact R2|]. split; [exact R3|]. split; [exact R4|]. split; [rewrite H2, Z1; reflexivity|]. split; [exact Z2|]. split; [exact Z3|]. split; [rewrite H3, Y1; reflexivity|auto].
Qed.
