(** Property theorems about what is told of INVITE commands (C28, C29, C31). *)
From Coq Require Import List Ascii String ZArith NArith Bool Lia Arith.
From Verif Require Import Bytes Match Lists ParseReq State Monad Core Write Info Chan Mode Msg Login Oper Server Dispatch Conn WF RelCmd Tree Live Observ HandLine Output HandDo HandSend HandCast HandNick HandJoined HandInvited Sessions PropsUser PropsLogin PropsSend PropsMore PropsLink PropsNick PropsJoin SpecMore Spec SpecLink SpecNick SpecJoin SpecInvite.
Import ListNotations.

(** ** C28 *)
(** An INVITE command for a user behind a server link, given by a user of this server or by one behind another link: if
    the user may be invited, the server in the direction of the invited user is sent the command of this user, once,
    and nothing else; otherwise it is sent nothing; and no other connection, except the one the command came from, is
    sent anything. ([settled]: see C28_topic_partial.) *)
Theorem C28_invite_partial : forall s i h c text nick name u d g e x v j o b s', live s -> undisturbed s -> server_settled s -> client_of s i h c -> acts s h c text "INVITE" [nick; name] u d -> nick_fits d -> settled d ->
  the_client s nick g e -> nick_fits e -> settled e -> cl_type e = T_USER -> next_hop s g x -> lookup x (s_heap s) = Some v -> cl_type v = T_SERVER -> cl_conn v = Some j -> is_open s j = true ->
  means_chan s name o -> Parse_Request i text s = Ok b s' -> i <> j ->
  (invitable s u g e name o -> written s s' j [relayed d (invite_text nick name)]) /\ (~ invitable s u g e name o -> written s s' j []) /\
  forall j', j' <> i -> j' <> j -> written s s' j' [].
Proof.
  intros s i h c text nick name u d g e x v j o b s' L U SS C AC NF S TG NG SE TE NH LV TV CJ OP MC H NE.
  destruct (invite_told s i h c text nick name u d g e x v j o b s' L U SS C AC NF S TG NG SE TE NH LV CJ MC H NE) as (R1 & R2 & R3). split; [|auto].
  intro IV. specialize (R1 IV OP). unfold line_from in R1. rewrite TV in R1. exact R1.
Qed.
Print Assumptions C28_invite_partial.
(** ** C29 *)
(** An INVITE command for a channel of this server only: no linked server is sent anything because of it, except that
    one which the command came from gets the answer. *)
Theorem C29_invite_partial : forall s i h c text nick name u d g e x v j o b s', live s -> undisturbed s -> server_settled s -> client_of s i h c -> acts s h c text "INVITE" [nick; name] u d -> nick_fits d -> settled d ->
  the_client s nick g e -> nick_fits e -> settled e -> cl_type e = T_USER -> next_hop s g x -> lookup x (s_heap s) = Some v -> cl_conn v = Some j ->
  means_chan s name o -> local_name name -> Parse_Request i text s = Ok b s' -> i <> j ->
  forall j' y, link s j' y -> i <> j' -> written s s' j' [].
Proof.
  intros s i h c text nick name u d g e x v j o b s' L U SS C AC NF S TG NG SE TE NH LV CJ MC LO H NE j' y (z & [Z1 Z2] & TY & CY) NI.
  destruct (invite_told s i h c text nick name u d g e x v j o b s' L U SS C AC NF S TG NG SE TE NH LV CJ MC H NE) as (R1 & R2 & R3).
  destruct (Nat.eq_dec j' j) as [-> |NJ]; [|apply R3; auto]. apply R2. intros [X _]. specialize (X LO). destruct (cl_conn e) as [q|] eqn:EC; [|congruence].
  pose proof (live_itree _ L U) as T. destruct TG as ((G1 & G2) & _). rewrite lookup_assoc in G2, Z2, LV. pose proof (local_hop _ _ _ _ _ T G2 EC NH) as E. subst x. rewrite G2 in LV. injection LV as <-.
  destruct (conn_client _ _ _ _ _ _ T Z2 G2 CY CJ) as [_ E]. congruence.
Qed.
Print Assumptions C29_invite_partial.
(** ** C31 *)
(** A user who is cloaked invites a user of this server: the line this user gets shows the cloaked host name. *)
Theorem C31_invite_partial : forall s i h c text nick name u d g e j o b s' w, live s -> undisturbed s -> server_settled s -> client_of s i h c -> acts s h c text "INVITE" [nick; name] u d -> nick_fits d -> In "x"%char (cl_modes d) -> cl_cloaked d = Some w ->
  the_client s nick g e -> nick_fits e -> settled e -> cl_type e = T_USER -> cl_conn e = Some j -> is_open s j = true ->
  means_chan s name o -> invitable s u g e name o -> Parse_Request i text s = Ok b s' -> i <> j ->
  written s s' j [line_with d w (invite_text nick name)].
Proof.
  intros s i h c text nick name u d g e j o b s' w L U SS C AC NF X CL TG NG SE TE CJ OP MC IV H NE.
  rewrite <- (cloaked_line s d e _ w); [|congruence|exact X|exact CL]. pose proof (live_itree _ L U) as T. assert (LG : lookup g (s_heap s) = Some e) by (destruct TG as ((_ & K) & _); exact K).
  assert (NH : next_hop s g g). { eapply NH_direct; [exact LG|]. rewrite lookup_assoc in LG. destruct (tr_local _ T _ _ _ LG CJ); auto. }
  destruct (invite_told s i h c text nick name u d g e g e j o b s' L U SS C AC NF ltac:(intros _ E; congruence) TG NG SE TE NH LG CJ MC H NE) as (R & _). exact (R IV OP).
Qed.
Print Assumptions C31_invite_partial.

(** ** examples *)
Definition next_hop_b (s : state) (g x : handle) : bool :=
  negb (Nat.eqb g x) && negb (Nat.eqb x This_Server) && has s g (fun d => match cl_introducer d with Some y => Nat.eqb y x | None => false end) &&
  has s x (fun c => match cl_introducer c with Some y => Nat.eqb y x || Nat.eqb y This_Server | None => true end).
Lemma hop_ok : forall s g x, next_hop_b s g x = true -> next_hop s g x.
Proof.
  intros s g x H. unfold next_hop_b in H. rewrite !andb_true_iff, !negb_true_iff in H. destruct H as [[[H1 H2] H3] H4]. apply has_ok in H3, H4. destruct H3 as (d & [_ K1] & H3). destruct H4 as (w & [_ K2] & H4).
  apply Nat.eqb_neq in H1, H2. destruct (cl_introducer d) as [y|] eqn:E; [|discriminate H3]. apply Nat.eqb_eq in H3. subst y.
  eapply NH_via; [exact K1|exact E|congruence|exact H2|]. eapply NH_direct; [exact K2|]. destruct (cl_introducer w) as [y|]; auto. apply orb_true_iff in H4. destruct H4 as [H4|H4]; apply Nat.eqb_eq in H4; subst y; auto.
Qed.
Definition no_chan_b (s : state) (name : bytes) : bool := forallb (fun p => negb (caseeq name (ch_name (snd p)))) (s_chans s).
Lemma no_chan_ok : forall s name, no_chan_b s name = true -> means_chan s name None.
Proof.
  intros s name H ch k E N. unfold no_chan_b in H. rewrite forallb_forall in H. unfold exists_chan in E. rewrite lookup_assoc in E. apply assoc_In in E. specialize (H _ E). cbn [snd] in H. apply same_name_iff in N. rewrite N in H. discriminate H.
Qed.
(** alice invites carol, who is behind hub.example.net, to #only; bob, who is not on this channel, cannot *)
Example C28_invite_nonvacuous : exists c b e v k s' s'', let alice := named "alice" st_only in let bob := named "bob" st_only in let carol := named "carol" st_only in let hub := named "hub.example.net" st_only in let ch := cnamed "#only" st_only in
  live st_only /\ undisturbed st_only /\ server_settled st_only /\ client_of st_only 5 alice c /\ acts st_only alice c (B "INVITE Carol #only") "INVITE" [B "Carol"; B "#only"] alice c /\ nick_fits c /\ settled c /\
  client_of st_only 6 bob b /\ acts st_only bob b (B "INVITE Carol #only") "INVITE" [B "Carol"; B "#only"] bob b /\ nick_fits b /\ settled b /\
  the_client st_only (B "Carol") carol e /\ nick_fits e /\ settled e /\ cl_type e = T_USER /\ next_hop st_only carol hub /\ lookup hub (s_heap st_only) = Some v /\ cl_type v = T_SERVER /\ cl_conn v = Some 7%nat /\ is_open st_only 7 = true /\
  means_chan st_only (B "#only") (Some (ch, k)) /\ invitable st_only alice carol e (B "#only") (Some (ch, k)) /\ ~ invitable st_only bob carol e (B "#only") (Some (ch, k)) /\
  Parse_Request 5 (B "INVITE Carol #only") st_only = Ok CONNECTED s' /\ sends 7 ":alice INVITE Carol #only" s' = true /\ more 7 1 st_only s' = true /\ more 6 0 st_only s' = true /\ more 8 0 st_only s' = true /\
  Parse_Request 6 (B "INVITE Carol #only") st_only = Ok CONNECTED s'' /\ more 7 0 st_only s'' = true /\ more 5 0 st_only s'' = true.
Proof.
  destruct (serves_ok st_only 5 (named "alice" st_only) plain_user) as (c & C & T); [vm_compute; reflexivity|]. apply plain_user_ok in T. destruct T as (T & T2 & T3).
  destruct (serves_ok st_only 6 (named "bob" st_only) plain_user) as (b & D & Y); [vm_compute; reflexivity|]. apply plain_user_ok in Y. destruct Y as (Y & Y2 & Y3).
  destruct (has_ok st_only (named "carol" st_only) (fun c => plain_user c && negb (is_some (cl_conn c)))) as (e & E1 & E2); [vm_compute; reflexivity|]. apply andb_true_iff in E2. destruct E2 as [E2 _]. apply plain_user_ok in E2. destruct E2 as (E2 & E3 & E4).
  destruct (has_ok st_only (named "hub.example.net" st_only) (fun c => type_b T_SERVER c && match cl_conn c with Some x => Nat.eqb x 7 | None => false end)) as (v & [_ V1] & V2); [vm_compute; reflexivity|]. apply andb_true_iff in V2. destruct V2 as [V2 V3]. apply type_b_ok in V2. destruct (cl_conn v) as [x|] eqn:VC; [|discriminate V3]. apply Nat.eqb_eq in V3. subst x.
  destruct (chas_ok st_only (cnamed "#only" st_only) (fun k => the_channel_b st_only (B "#only") (cnamed "#only" st_only) k && negb (memb "V" (ch_modes k)) && negb (memb "i" (ch_modes k)))) as (k & K & P); [vm_compute; reflexivity|]. rewrite !andb_true_iff, !negb_true_iff in P. destruct P as [[P1 P2] P3].
  destruct (doing_ok _ (Parse_Request 5 (B "INVITE Carol #only")) st_only (fun b s => b && sends 7 ":alice INVITE Carol #only" s && more 7 1 st_only s && more 6 0 st_only s && more 8 0 st_only s)) as (b1 & s' & H & R); [vm_compute; reflexivity|]. rewrite !andb_true_iff in R. destruct R as [[[[R1 R2] R3] R4] R5].
  destruct (doing_ok _ (Parse_Request 6 (B "INVITE Carol #only")) st_only (fun b s => b && more 7 0 st_only s && more 5 0 st_only s)) as (b2 & s'' & H2 & R'); [vm_compute; reflexivity|]. rewrite !andb_true_iff in R'. destruct R' as [[R6 R7] R8].
  exists c, b, e, v, k, s', s''. cbv zeta. split; [apply V_reach; exact st_only_reachable|]. split; [apply calm_ok; vm_compute; reflexivity|]. split; [apply settled_ok; vm_compute; reflexivity|]. split; [exact C|]. split; [left; split; [exact T|]; split; [apply orders_b; vm_compute; reflexivity|auto]|]. split; [exact T3|]. split; [exact T2|].
  split; [exact D|]. split; [left; split; [exact Y|]; split; [apply orders_b; vm_compute; reflexivity|auto]|]. split; [exact Y3|]. split; [exact Y2|].
  split; [apply the_client_ok; [exact E1|vm_compute; reflexivity]|]. split; [exact E4|]. split; [exact E3|]. split; [exact E2|]. split; [apply hop_ok; vm_compute; reflexivity|]. split; [exact V1|]. split; [exact V2|]. split; [exact VC|]. split; [vm_compute; reflexivity|].
  split; [apply the_channel_ok; auto|]. assert (NL : ~ local_name (B "#only")) by (intros [r X]; discriminate X).
  split; [split; [intro X; contradiction|]; split; [apply on_b_ok; vm_compute; reflexivity|]; split; [apply not_In_b; exact P2|]; split; [intro X; destruct (not_In_b _ _ P3 X)|apply not_on_b; vm_compute; reflexivity]|].
  split; [intros [_ [X _]]; revert X; apply not_on_b; vm_compute; reflexivity|].
  split; [rewrite H, R1; reflexivity|]. split; [exact R2|]. split; [exact R3|]. split; [exact R4|]. split; [exact R5|]. split; [rewrite H2, R6; reflexivity|auto].
Qed.
(** alice tries to invite carol to &loc: hub.example.net is sent nothing; and invites bob to &free, which does not exist *)
Example C29_invite_nonvacuous : exists c e f v k s' s'', let alice := named "alice" st_loc in let bob := named "bob" st_loc in let carol := named "carol" st_loc in let hub := named "hub.example.net" st_loc in let ch := cnamed "&loc" st_loc in
  live st_loc /\ undisturbed st_loc /\ server_settled st_loc /\ client_of st_loc 5 alice c /\ acts st_loc alice c (B "INVITE carol &loc") "INVITE" [B "carol"; B "&loc"] alice c /\ acts st_loc alice c (B "INVITE bob &free") "INVITE" [B "bob"; B "&free"] alice c /\ nick_fits c /\ settled c /\
  the_client st_loc (B "carol") carol e /\ nick_fits e /\ settled e /\ cl_type e = T_USER /\ next_hop st_loc carol hub /\ lookup hub (s_heap st_loc) = Some v /\ cl_conn v = Some 7%nat /\
  the_client st_loc (B "bob") bob f /\ nick_fits f /\ settled f /\ cl_type f = T_USER /\ next_hop st_loc bob bob /\ cl_conn f = Some 6%nat /\
  means_chan st_loc (B "&loc") (Some (ch, k)) /\ means_chan st_loc (B "&free") None /\ invitable st_loc alice bob f (B "&free") None /\ (exists x, link st_loc 7 x) /\
  Parse_Request 5 (B "INVITE carol &loc") st_loc = Ok CONNECTED s' /\ more 7 0 st_loc s' = true /\ more 8 0 st_loc s' = true /\
  Parse_Request 5 (B "INVITE bob &free") st_loc = Ok CONNECTED s'' /\ more 7 0 st_loc s'' = true /\ sends 6 ":alice!~alice@1.2.3.4 INVITE bob &free" s'' = true.
Proof.
  destruct (serves_ok st_loc 5 (named "alice" st_loc) plain_user) as (c & C & T); [vm_compute; reflexivity|]. apply plain_user_ok in T. destruct T as (T & T2 & T3).
  destruct (has_ok st_loc (named "carol" st_loc) plain_user) as (e & E1 & E2); [vm_compute; reflexivity|]. apply plain_user_ok in E2. destruct E2 as (E2 & E3 & E4).
  destruct (has_ok st_loc (named "bob" st_loc) (fun c => plain_user c && match cl_conn c with Some x => Nat.eqb x 6 | None => false end && match cl_introducer c with None => true | Some y => Nat.eqb y This_Server || Nat.eqb y (named "bob" st_loc) end)) as (f & F1 & F2); [vm_compute; reflexivity|]. rewrite !andb_true_iff in F2. destruct F2 as [[F2 F5] F6]. apply plain_user_ok in F2. destruct F2 as (F2 & F3 & F4). destruct (cl_conn f) as [x|] eqn:FC; [|discriminate F5]. apply Nat.eqb_eq in F5. subst x.
  destruct (has_ok st_loc (named "hub.example.net" st_loc) (fun c => match cl_conn c with Some x => Nat.eqb x 7 | None => false end)) as (v & [_ V1] & V3); [vm_compute; reflexivity|]. destruct (cl_conn v) as [x|] eqn:VC; [|discriminate V3]. apply Nat.eqb_eq in V3. subst x.
  destruct (chas_ok st_loc (cnamed "&loc" st_loc) (fun k => the_channel_b st_loc (B "&loc") (cnamed "&loc" st_loc) k)) as (k & K & P); [vm_compute; reflexivity|].
  destruct (doing_ok _ (Parse_Request 5 (B "INVITE carol &loc")) st_loc (fun b s => b && more 7 0 st_loc s && more 8 0 st_loc s)) as (b1 & s' & H & R); [vm_compute; reflexivity|]. rewrite !andb_true_iff in R. destruct R as [[R1 R2] R3].
  destruct (doing_ok _ (Parse_Request 5 (B "INVITE bob &free")) st_loc (fun b s => b && more 7 0 st_loc s && sends 6 ":alice!~alice@1.2.3.4 INVITE bob &free" s)) as (b2 & s'' & H2 & R'); [vm_compute; reflexivity|]. rewrite !andb_true_iff in R'. destruct R' as [[R6 R7] R8].
  exists c, e, f, v, k, s', s''. cbv zeta. split; [apply V_reach; exact st_loc_reachable|]. split; [apply calm_ok; vm_compute; reflexivity|]. split; [apply settled_ok; vm_compute; reflexivity|]. split; [exact C|]. split; [left; split; [exact T|]; split; [apply orders_b; vm_compute; reflexivity|auto]|]. split; [left; split; [exact T|]; split; [apply orders_b; vm_compute; reflexivity|auto]|]. split; [exact T3|]. split; [exact T2|].
  split; [apply the_client_ok; [exact E1|vm_compute; reflexivity]|]. split; [exact E4|]. split; [exact E3|]. split; [exact E2|]. split; [apply hop_ok; vm_compute; reflexivity|]. split; [exact V1|]. split; [exact VC|].
  split; [apply the_client_ok; [exact F1|vm_compute; reflexivity]|]. split; [exact F4|]. split; [exact F3|]. split; [exact F2|]. split; [eapply NH_direct; [apply F1|]; destruct (cl_introducer f) as [y|]; [apply orb_true_iff in F6; destruct F6 as [F6|F6]; apply Nat.eqb_eq in F6; subst y; auto|auto]|]. split; [exact FC|].
  split; [apply the_channel_ok; auto|]. split; [apply no_chan_ok; vm_compute; reflexivity|]. split; [split; [congruence|exact I]|]. split; [apply (link_is_ok _ _ (named "hub.example.net" st_loc)); vm_compute; reflexivity|].
  split; [rewrite H, R1; reflexivity|]. split; [exact R2|]. split; [exact R3|]. split; [rewrite H2, R6; reflexivity|auto].
Qed.
(** bob, who is cloaked, invites alice: she sees his cloaked host name *)
Example C31_invite_nonvacuous : exists c v e s', let bob := named "bob" st_cloak2 in let alice := named "alice" st_cloak2 in
  live st_cloak2 /\ undisturbed st_cloak2 /\ server_settled st_cloak2 /\ client_of st_cloak2 6 bob c /\ acts st_cloak2 bob c (B "INVITE alice #new") "INVITE" [B "alice"; B "#new"] bob c /\ nick_fits c /\ In "x"%char (cl_modes c) /\ cl_cloaked c = Some v /\ v <> cl_host c /\
  the_client st_cloak2 (B "alice") alice e /\ nick_fits e /\ settled e /\ cl_type e = T_USER /\ cl_conn e = Some 5%nat /\ is_open st_cloak2 5 = true /\ means_chan st_cloak2 (B "#new") None /\ invitable st_cloak2 bob alice e (B "#new") None /\
  Parse_Request 6 (B "INVITE alice #new") st_cloak2 = Ok CONNECTED s' /\ existsb (fun p => Nat.eqb (fst p) 5 && beq (snd p) (line_with c v (B "INVITE alice #new"))) (s_out s') = true.
Proof.
  destruct (serves_ok st_cloak2 6 (named "bob" st_cloak2) (fun c => type_b T_USER c && memb "x" (cl_modes c) && negb (beq (cl_id c) []) && Nat.ltb (List.length (cl_id c)) 32 && match cl_cloaked c with Some v => negb (beq v (cl_host c)) &&
      doing (Parse_Request 6 (B "INVITE alice #new")) st_cloak2 (fun b s => b && existsb (fun p => Nat.eqb (fst p) 5 && beq (snd p) (line_with c v (B "INVITE alice #new"))) (s_out s)) | None => false end)) as (c & C & T); [vm_compute; reflexivity|].
  rewrite !andb_true_iff, negb_true_iff in T. destruct T as [[[[T1 T2] T3] T4] T5]. apply type_b_ok in T1. destruct (cl_cloaked c) as [v|] eqn:CV; [|discriminate T5]. rewrite andb_true_iff, negb_true_iff in T5. destruct T5 as [T5 T7].
  apply doing_ok in T7. destruct T7 as (b & s' & H & R). rewrite !andb_true_iff in R. destruct R as [R1 R3].
  destruct (has_ok st_cloak2 (named "alice" st_cloak2) (fun c => plain_user c && match cl_conn c with Some x => Nat.eqb x 5 | None => false end)) as (e & E1 & E2); [vm_compute; reflexivity|]. apply andb_true_iff in E2. destruct E2 as [E2 E5]. apply plain_user_ok in E2. destruct E2 as (E2 & E3 & E4). destruct (cl_conn e) as [x|] eqn:EC; [|discriminate E5]. apply Nat.eqb_eq in E5. subst x.
  exists c, v, e, s'. cbv zeta. split; [apply V_reach; exact st_cloak2_reachable|]. split; [apply calm_ok; vm_compute; reflexivity|]. split; [apply settled_ok; vm_compute; reflexivity|]. split; [exact C|]. split; [left; split; [exact T1|]; split; [apply orders_b; vm_compute; reflexivity|auto]|].
  split; [split; [intro X; rewrite X in T3; discriminate T3|apply Nat.ltb_lt; exact T4]|]. split; [apply Bytes.memb_In; exact T2|]. split; [exact CV|]. split; [intros ->; rewrite (proj2 (beq_eq _ _) eq_refl) in T5; discriminate T5|].
  split; [apply the_client_ok; [exact E1|vm_compute; reflexivity]|]. split; [exact E4|]. split; [exact E3|]. split; [exact E2|]. split; [exact EC|]. split; [vm_compute; reflexivity|]. split; [apply no_chan_ok; vm_compute; reflexivity|]. split; [split; [congruence|exact I]|].
  split; [rewrite H, R1; reflexivity|]. exact R3.
Qed.
