(** Property theorems about what is told of the modes of users: MODE and AWAY (C28, C31). *)
From Coq Require Import List Ascii String ZArith NArith Bool Lia Arith.
From Verif Require Import Bytes Match Lists ParseReq State Monad Core Write Info Chan Mode Msg Login Oper Server Dispatch Conn WF RelCmd Tree Live Observ HandLine Output HandDo HandSend HandCast HandNick HandJoined HandUmode Sessions PropsUser PropsLogin PropsSend PropsMore PropsLink PropsNick PropsJoin PropsMode Spec SpecLink SpecNick SpecJoin SpecMode SpecUmode.
Import ListNotations.

(** ** C28 *)
(** A MODE command with any number of different letters, which a user of this server gives for himself and may give,
    or which a user behind a linked server gives for some user: exactly the letters that are a change are told, in one
    command, once to every linked server except the source, and to the user whose modes they are, if he is one of this
    server; nobody else is sent anything; and his modes afterwards are what that says. *)
Theorem C28_umode_partial : forall s i h c text name add fs u d g e b s', live s -> undisturbed s -> client_of s i h c -> acts s h c text "MODE" [name; sign_of add :: fs] u d -> nick_fits d -> settled d ->
  legal_nick (cf_maxnick (s_conf s)) name -> the_client s name g e -> cl_type e = T_USER -> nick_fits e -> (cl_type c = T_USER -> g = h) ->
  NoDup (cl_modes e) -> NoDup fs -> (List.length (cl_modes e) + List.length fs <= 20)%nat -> (forall x, In x fs -> may_umode c e add x) -> Parse_Request i text s = Ok b s' ->
  let msgs := umode_msgs (cl_id e) add (uchanged (cl_modes e) add fs) in
  (forall j x, link s j x -> is_open s j = true -> written s s' j (if (i =? j)%nat then [] else map (relayed d) msgs)) /\
  (forall j, cl_conn e = Some j -> is_open s j = true -> written s s' j (map (line_from s d e) msgs)) /\
  (forall j, is_open s j = true -> (forall x, ~ link s j x) -> cl_conn e <> Some j -> written s s' j []) /\
  new_modes s s' g e add fs.
Proof. exact umode_told. Qed.
Print Assumptions C28_umode_partial.
(** An AWAY command of a user of this server: every linked server is sent the mode a of the user, set if there is a
    text which is not empty and removed otherwise, and nothing else; and nobody else than the user is sent anything. *)
Theorem C28_away_partial : forall s i h c text args b s', live s -> undisturbed s -> server_settled s -> client_of s i h c -> cl_type c = T_USER -> orders s text "AWAY" args -> nick_fits c -> settled c -> (List.length args <= 1)%nat ->
  Parse_Request i text s = Ok b s' ->
  let away := match args with [m] => negb (beq m []) | _ => false end in
  (forall j x, link s j x -> is_open s j = true -> written s s' j [relayed c (B "MODE " ++ cl_id c ++ B " :" ++ sign_of away :: B "a")]) /\
  (forall j, (forall x, ~ link s j x) -> i <> j -> written s s' j []).
Proof. exact away_told. Qed.
Print Assumptions C28_away_partial.
(** ** C31 *)
(** A user who is cloaked and changes his modes: the line he gets shows the cloaked host name. *)
Theorem C31_umode_partial : forall s i h c text name add fs b s' w, live s -> undisturbed s -> client_of s i h c -> cl_type c = T_USER -> orders s text "MODE" [name; sign_of add :: fs] -> nick_fits c -> In "x"%char (cl_modes c) -> cl_cloaked c = Some w ->
  legal_nick (cf_maxnick (s_conf s)) name -> the_client s name h c -> cl_conn c = Some i -> is_open s i = true ->
  NoDup (cl_modes c) -> NoDup fs -> (List.length (cl_modes c) + List.length fs <= 20)%nat -> (forall x, In x fs -> may_umode c c add x) -> Parse_Request i text s = Ok b s' ->
  written s s' i (map (line_with c w) (umode_msgs (cl_id c) add (uchanged (cl_modes c) add fs))).
Proof.
  intros s i h c text name add fs b s' w L U C TU OR NF X CL LN TC CJ OP ND NDf LB M H.
  destruct (umode_told s i h c text name add fs h c h c b s' L U C (or_introl (conj TU (conj OR (conj eq_refl eq_refl)))) NF ltac:(intros _ E; congruence) LN TC TU NF (fun _ => eq_refl) ND NDf LB M H) as (_ & R & _).
  specialize (R i CJ OP). erewrite map_ext; [exact R|]. intro m. symmetry. apply cloaked_line; [congruence|exact X|exact CL].
Qed.
Print Assumptions C31_umode_partial.

(** ** examples *)
(** alice sets the modes w and s, and i, which she may have already *)
Example C28_umode_nonvacuous : exists c s', let alice := named "alice" st_two in
  live st_two /\ undisturbed st_two /\ client_of st_two 5 alice c /\ acts st_two alice c (B "MODE Alice +wsC") "MODE" [B "Alice"; sign_of true :: B "wsC"] alice c /\ nick_fits c /\ settled c /\
  legal_nick (cf_maxnick (s_conf st_two)) (B "Alice") /\ the_client st_two (B "Alice") alice c /\ cl_type c = T_USER /\ NoDup (cl_modes c) /\ NoDup (B "wsC") /\ (List.length (cl_modes c) + List.length (B "wsC") <= 20)%nat /\
  (forall x, In x (B "wsC") -> may_umode c c true x) /\ uchanged (cl_modes c) true (B "wsC") = B "wsC" /\ (exists x, link st_two 7 x) /\ (exists x, link st_two 8 x) /\ cl_conn c = Some 5%nat /\
  Parse_Request 5 (B "MODE Alice +wsC") st_two = Ok CONNECTED s' /\ sends 7 ":alice MODE alice :+wsC" s' = true /\ sends 8 ":alice MODE alice :+wsC" s' = true /\ sends 5 ":alice!~alice@1.2.3.4 MODE alice :+wsC" s' = true.
Proof.
  destruct (serves_ok st_two 5 (named "alice" st_two) (fun c => plain_user c && nodup_b (cl_modes c) && Nat.leb (List.length (cl_modes c) + 3) 20 && beq (uchanged (cl_modes c) true (B "wsC")) (B "wsC") && match cl_conn c with Some x => Nat.eqb x 5 | None => false end)) as (c & C & T); [vm_compute; reflexivity|].
  rewrite !andb_true_iff in T. destruct T as [[[[T P1] P2] P3] P4]. apply plain_user_ok in T. destruct T as (T & T2 & T3). apply beq_eq in P3. apply Nat.leb_le in P2. destruct (cl_conn c) as [x|] eqn:CC; [|discriminate P4]. apply Nat.eqb_eq in P4. subst x.
  destruct (has_ok st_two (named "alice" st_two) (fun _ => true)) as (c' & K & _); [vm_compute; reflexivity|]. assert (c' = c) by (destruct C as [_ C2], K as [_ K2]; congruence). subst c'.
  destruct (doing_ok _ (Parse_Request 5 (B "MODE Alice +wsC")) st_two (fun b s => b && sends 7 ":alice MODE alice :+wsC" s && sends 8 ":alice MODE alice :+wsC" s && sends 5 ":alice!~alice@1.2.3.4 MODE alice :+wsC" s)) as (b & s' & H & R); [vm_compute; reflexivity|]. rewrite !andb_true_iff in R. destruct R as [[[R1 R2] R3] R4].
  exists c, s'. cbv zeta. split; [apply V_reach; exact st_two_reachable|]. split; [apply calm_ok; vm_compute; reflexivity|]. split; [exact C|]. split; [left; split; [exact T|]; split; [apply orders_b; vm_compute; reflexivity|auto]|]. split; [exact T3|]. split; [exact T2|].
  split; [apply valid_nick_legal; vm_compute; reflexivity|]. split; [apply the_client_ok; [exact K|vm_compute; reflexivity]|]. split; [exact T|]. split; [apply nodup_ok; exact P1|]. split; [apply nodup_ok; vm_compute; reflexivity|]. split; [exact P2|].
  split; [intros x I; left; split; [exact T|left]; cbn in I; destruct I as [<- |[<- |[<- |[]]]]; cbn; tauto|]. split; [exact P3|].
  split; [apply (link_is_ok _ _ (named "hub.example.net" st_two)); vm_compute; reflexivity|]. split; [apply (link_is_ok _ _ (named "other.example.net" st_two)); vm_compute; reflexivity|]. split; [exact CC|]. split; [rewrite H, R1; reflexivity|auto].
Qed.
(** carol, who is behind the server on connection 7, becomes an operator there *)
Example C28_umode_remote_nonvacuous : exists c d s', let hub := named "hub.example.net" st_two in let carol := named "carol" st_two in
  live st_two /\ undisturbed st_two /\ client_of st_two 7 hub c /\ acts st_two hub c (B ":carol MODE carol +oR") "MODE" [B "carol"; sign_of true :: B "oR"] carol d /\ nick_fits d /\ settled d /\ cl_type c = T_SERVER /\
  legal_nick (cf_maxnick (s_conf st_two)) (B "carol") /\ the_client st_two (B "carol") carol d /\ cl_type d = T_USER /\ NoDup (cl_modes d) /\ NoDup (B "oR") /\ (List.length (cl_modes d) + List.length (B "oR") <= 20)%nat /\
  (forall x, In x (B "oR") -> may_umode c d true x) /\ (exists x, link st_two 7 x) /\ (exists x, link st_two 8 x) /\ cl_conn d = None /\
  Parse_Request 7 (B ":carol MODE carol +oR") st_two = Ok CONNECTED s' /\ sends 8 ":carol MODE carol :+oR" s' = true /\ sends 7 ":carol MODE carol :+oR" s' = false.
Proof.
  destruct (serves_ok st_two 7 (named "hub.example.net" st_two) (type_b T_SERVER)) as (c & C & T); [vm_compute; reflexivity|]. apply type_b_ok in T.
  destruct (has_ok st_two (named "carol" st_two) (fun d => plain_user d && nodup_b (cl_modes d) && Nat.leb (List.length (cl_modes d) + 2) 20 && negb (is_some (cl_conn d)))) as (d & D1 & D2); [vm_compute; reflexivity|].
  rewrite !andb_true_iff, negb_true_iff in D2. destruct D2 as [[[D2 P1] P2] P3]. apply plain_user_ok in D2. destruct D2 as (D2 & D3 & D4). apply Nat.leb_le in P2.
  destruct (doing_ok _ (Parse_Request 7 (B ":carol MODE carol +oR")) st_two (fun b s => b && sends 8 ":carol MODE carol :+oR" s && negb (sends 7 ":carol MODE carol :+oR" s))) as (b & s' & H & R); [vm_compute; reflexivity|]. rewrite !andb_true_iff, !negb_true_iff in R. destruct R as [[R1 R2] R3].
  exists c, d, s'. cbv zeta. split; [apply V_reach; exact st_two_reachable|]. split; [apply calm_ok; vm_compute; reflexivity|]. split; [exact C|]. split; [apply acts_ok; [apply C|exact D1|vm_compute; reflexivity]|]. split; [exact D4|]. split; [exact D3|]. split; [exact T|].
  split; [apply valid_nick_legal; vm_compute; reflexivity|]. split; [apply the_client_ok; [exact D1|vm_compute; reflexivity]|]. split; [exact D2|]. split; [apply nodup_ok; exact P1|]. split; [apply nodup_ok; vm_compute; reflexivity|]. split; [exact P2|].
  split; [intros x I; right; split; [exact T|]; cbn in I; destruct I as [<- |[<- |[]]]; cbn; intro X; repeat (destruct X as [X|X]; [discriminate X|]); destruct X|].
  split; [apply (link_is_ok _ _ (named "hub.example.net" st_two)); vm_compute; reflexivity|]. split; [apply (link_is_ok _ _ (named "other.example.net" st_two)); vm_compute; reflexivity|]. split; [destruct (cl_conn d); [discriminate P3|reflexivity]|]. split; [rewrite H, R1; reflexivity|auto].
Qed.
(** alice goes away and comes back *)
Example C28_away_nonvacuous : exists c s' s'', let alice := named "alice" st_two in
  live st_two /\ undisturbed st_two /\ server_settled st_two /\ client_of st_two 5 alice c /\ cl_type c = T_USER /\ orders st_two (B "AWAY :gone fishing") "AWAY" [B "gone fishing"] /\ orders st_two (B "AWAY") "AWAY" [] /\ nick_fits c /\ settled c /\
  (exists x, link st_two 7 x) /\ (exists x, link st_two 8 x) /\
  Parse_Request 5 (B "AWAY :gone fishing") st_two = Ok CONNECTED s' /\ sends 7 ":alice MODE alice :+a" s' = true /\ sends 8 ":alice MODE alice :+a" s' = true /\ more 6 0 st_two s' = true /\ more 5 1 st_two s' = true /\
  Parse_Request 5 (B "AWAY") st_two = Ok CONNECTED s'' /\ sends 7 ":alice MODE alice :-a" s'' = true /\ sends 8 ":alice MODE alice :-a" s'' = true.
Proof.
  destruct (serves_ok st_two 5 (named "alice" st_two) plain_user) as (c & C & T); [vm_compute; reflexivity|]. apply plain_user_ok in T. destruct T as (T & T2 & T3).
  destruct (doing_ok _ (Parse_Request 5 (B "AWAY :gone fishing")) st_two (fun b s => b && sends 7 ":alice MODE alice :+a" s && sends 8 ":alice MODE alice :+a" s && more 6 0 st_two s && more 5 1 st_two s)) as (b & s' & H & R); [vm_compute; reflexivity|]. rewrite !andb_true_iff in R. destruct R as [[[[R1 R2] R3] R4] R5].
  destruct (doing_ok _ (Parse_Request 5 (B "AWAY")) st_two (fun b s => b && sends 7 ":alice MODE alice :-a" s && sends 8 ":alice MODE alice :-a" s)) as (b2 & s'' & H2 & R'); [vm_compute; reflexivity|]. rewrite !andb_true_iff in R'. destruct R' as [[R6 R7] R8].
  exists c, s', s''. cbv zeta. split; [apply V_reach; exact st_two_reachable|]. split; [apply calm_ok; vm_compute; reflexivity|]. split; [apply settled_ok; vm_compute; reflexivity|]. split; [exact C|]. split; [exact T|]. split; [apply orders_b; vm_compute; reflexivity|]. split; [apply orders_b; vm_compute; reflexivity|]. split; [exact T3|]. split; [exact T2|].
  split; [apply (link_is_ok _ _ (named "hub.example.net" st_two)); vm_compute; reflexivity|]. split; [apply (link_is_ok _ _ (named "other.example.net" st_two)); vm_compute; reflexivity|].
  split; [rewrite H, R1; reflexivity|]. split; [exact R2|]. split; [exact R3|]. split; [exact R4|]. split; [exact R5|]. split; [rewrite H2, R6; reflexivity|auto].
Qed.
(** bob, who is cloaked, sets the mode w *)
Example C31_umode_nonvacuous : exists c v s', let bob := named "bob" st_cloak2 in
  live st_cloak2 /\ undisturbed st_cloak2 /\ client_of st_cloak2 6 bob c /\ cl_type c = T_USER /\ orders st_cloak2 (B "MODE bob +w") "MODE" [B "bob"; sign_of true :: B "w"] /\ nick_fits c /\ In "x"%char (cl_modes c) /\ cl_cloaked c = Some v /\ v <> cl_host c /\
  legal_nick (cf_maxnick (s_conf st_cloak2)) (B "bob") /\ the_client st_cloak2 (B "bob") bob c /\ cl_conn c = Some 6%nat /\ is_open st_cloak2 6 = true /\ NoDup (cl_modes c) /\ (List.length (cl_modes c) + 1 <= 20)%nat /\ may_umode c c true "w" /\ uchanged (cl_modes c) true (B "w") = B "w" /\
  Parse_Request 6 (B "MODE bob +w") st_cloak2 = Ok CONNECTED s' /\ existsb (fun p => Nat.eqb (fst p) 6 && beq (snd p) (line_with c v (B "MODE bob :+w"))) (s_out s') = true.
Proof.
  destruct (serves_ok st_cloak2 6 (named "bob" st_cloak2) (fun c => type_b T_USER c && memb "x" (cl_modes c) && negb (beq (cl_id c) []) && Nat.ltb (List.length (cl_id c)) 32 && nodup_b (cl_modes c) && Nat.leb (List.length (cl_modes c) + 1) 20 && beq (uchanged (cl_modes c) true (B "w")) (B "w") && match cl_conn c with Some x => Nat.eqb x 6 | None => false end &&
      match cl_cloaked c with Some v => negb (beq v (cl_host c)) && doing (Parse_Request 6 (B "MODE bob +w")) st_cloak2 (fun b s => b && existsb (fun p => Nat.eqb (fst p) 6 && beq (snd p) (line_with c v (B "MODE bob :+w"))) (s_out s)) | None => false end)) as (c & C & T); [vm_compute; reflexivity|].
  rewrite !andb_true_iff, negb_true_iff in T. destruct T as [[[[[[[[T1 T2] T3] T4] P1] P2] P3] P4] T5]. apply type_b_ok in T1. destruct (cl_cloaked c) as [v|] eqn:CV; [|discriminate T5]. rewrite andb_true_iff, negb_true_iff in T5. destruct T5 as [T5 T7].
  apply doing_ok in T7. destruct T7 as (b & s' & H & R). rewrite !andb_true_iff in R. destruct R as [R1 R3]. destruct (cl_conn c) as [x|] eqn:CC; [|discriminate P4]. apply Nat.eqb_eq in P4. subst x. apply beq_eq in P3. apply Nat.leb_le in P2.
  destruct (has_ok st_cloak2 (named "bob" st_cloak2) (fun _ => true)) as (c' & K & _); [vm_compute; reflexivity|]. assert (c' = c) by (destruct C as [_ C2], K as [_ K2]; congruence). subst c'.
  exists c, v, s'. cbv zeta. split; [apply V_reach; exact st_cloak2_reachable|]. split; [apply calm_ok; vm_compute; reflexivity|]. split; [exact C|]. split; [exact T1|]. split; [apply orders_b; vm_compute; reflexivity|].
  split; [split; [intro X; rewrite X in T3; discriminate T3|apply Nat.ltb_lt; exact T4]|]. split; [apply Bytes.memb_In; exact T2|]. split; [exact CV|]. split; [intros ->; rewrite (proj2 (beq_eq _ _) eq_refl) in T5; discriminate T5|].
  split; [apply valid_nick_legal; vm_compute; reflexivity|]. split; [apply the_client_ok; [exact K|vm_compute; reflexivity]|]. split; [exact CC|]. split; [vm_compute; reflexivity|]. split; [apply nodup_ok; exact P1|]. split; [exact P2|].
  split; [left; split; [exact T1|left; cbn; tauto]|]. split; [exact P3|]. split; [rewrite H, R1; reflexivity|exact R3].
Qed.
