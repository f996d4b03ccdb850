(** What the functions that create, retype and free structures do, as equations between states. *)
From Coq Require Import List Ascii String ZArith NArith Bool Lia.
From Coq Require Import Relations RelationClasses.
From Verif Require Import Bytes Strl Match Lists Hash ParseReq State Messages Monad Core Write Info Chan Mode Msg Login Oper Server Dispatch Conn Rel RelWrite RelInfo RelBase.
Import ListNotations.
Local Open Scope m_scope.

(** explicit inversion *)
Tactic Notation "bd" hyp(H) "as" ident(a) ident(s) ident(H1) := apply bind_ok in H; destruct H as (a & s & H1 & H).
Tactic Notation "rdcli" hyp(H) := apply cli_ok in H; destruct H as [H ->].
Tactic Notation "rdret" hyp(H) := apply ret_ok in H; first [destruct H as [-> ->] | destruct H as [_ ->] | destruct H as [<- ->]].
Tactic Notation "rdgets" hyp(H) := apply gets_ok in H; destruct H as [-> ->].

Lemma set_max_id : forall s, set_s_maxusers (s_maxusers s) (set_s_mymaxusers (s_mymaxusers s) s) = s.
Proof. intros []. reflexivity. Qed.
Lemma mcount_ok : forall A (f : A -> M bool) s, (forall a b s', f a s = Ok b s' -> s' = s) ->
  forall l n s', mcount f l s = Ok n s' -> s' = s.
Proof.
  intros A f s Hf. induction l as [|a l IH]; intros n s' H; cbn [mcount] in H. { minv H. reflexivity. }
  minv H. assert (s0 = s) by eauto. subst. eauto.
Qed.
Lemma Count_ok : forall t s n s', Count t s = Ok n s' -> s' = s.
Proof. intros t s n s' H. unfold Count in H. minv H. eapply mcount_ok; eauto. intros a b s1 H1. cbv beta in H1. minv H1. reflexivity. Qed.
Lemma MyCount_ok : forall t s n s', MyCount t s = Ok n s' -> s' = s.
Proof. intros t s n s' H. unfold MyCount in H. minv H. eapply mcount_ok; eauto. intros a b s1 H1. cbv beta in H1. minv H1. reflexivity. Qed.
Lemma Adjust_Counters_ok : forall h s s', Adjust_Counters h s = Ok tt s' ->
  exists a b, s' = set_s_maxusers a (set_s_mymaxusers b s).
Proof.
  intros h s s' H. unfold Adjust_Counters in H. minv H. destruct (ctype_eqb (cl_type a) T_USER).
  2: { minv H. exists (s_maxusers s), (s_mymaxusers s). symmetry. apply set_max_id. }
  apply bind_ok in H. destruct H as (u & s1 & H1 & H).
  assert (E : exists b, s1 = set_s_mymaxusers b s).
  { destruct (cl_conn a). 2: { minv H1. exists (s_mymaxusers s). destruct s; reflexivity. }
    minv H1. apply MyCount_ok in Hm. subst. destruct (s_mymaxusers s <? a0)%Z.
    - eauto.
    - exists (s_mymaxusers s). destruct s; reflexivity. }
  destruct E as [b ->]. minv H. apply Count_ok in Hm. subst.
  match goal with |- context [if ?c then _ else _] => destruct c end; [eauto|].
  exists (s_maxusers s), b. destruct s; reflexivity.
Qed.
Lemma mseq_tokens_ok : forall s l used s', mseq (map (fun x => c <- cli x ;; ret (cl_mytoken c)) l) s = Ok used s' ->
  s' = s /\ Forall2 (fun x z => exists c, assoc x (s_heap s) = Some c /\ cl_mytoken c = z) l used.
Proof.
  intros s. induction l as [|x l IH]; intros used s' H; cbn [map mseq] in H. { minv H. auto. }
  apply bind_ok in H. destruct H as (z & s1 & H1 & H). apply bind_ok in H1. destruct H1 as (c & s2 & H1 & H2).
  apply cli_ok in H1. destruct H1 as [H1 ->]. apply ret_ok in H2. destruct H2 as [-> ->].
  apply bind_ok in H. destruct H as (us & s3 & H2 & H). apply IH in H2. destruct H2 as [-> H2]. apply ret_ok in H. destruct H as [-> ->].
  split; auto. constructor; eauto.
Qed.

Lemma Forall2_imp : forall A B (R Q : A -> B -> Prop) l m, (forall a b, R a b -> Q a b) -> Forall2 R l m -> Forall2 Q l m.
Proof. induction 2; constructor; auto. Qed.

(** a change of the type *)
Definition retype_odd (c : client) (t : ctype) : bool :=
  (ctype_eqb (cl_type c) T_SERVER || (ctype_eqb (cl_type c) T_UNKNOWNSERVER && negb (beq (cl_id c) [])))
  && negb (ctype_eqb t T_SERVER || (ctype_eqb t T_UNKNOWNSERVER && negb (ctype_eqb (cl_type c) T_SERVER))).
Definition typed (t : ctype) (tok : Z) (c : client) : client :=
  if ctype_eqb t T_SERVER then set_cl_mytoken tok (set_cl_type t c) else set_cl_type t c.
Definition new_token (tok : Z) (s : state) : Prop := exists used, tok = gen_token (S (List.length used)) used 2 /\
  Forall2 (fun x z => exists c, assoc x (s_heap s) = Some c /\ cl_mytoken c = z) (s_clients s) used.

Lemma aupd_aupd : forall A k (f g : A -> A) l, aupd k g (aupd k f l) = aupd k (fun x => g (f x)) l.
Proof.
  intros. unfold aupd. rewrite map_map. apply map_ext. intros [x y]. simpl.
  destruct (Nat.eqb k x) eqn:E; simpl; rewrite E; reflexivity.
Qed.
Lemma set_cli_cli : forall h f g s, set_cli h g (set_cli h f s) = set_cli h (fun c => g (f c)) s.
Proof.
  intros. unfold set_cli. cbn [s_heap set_s_heap]. rewrite aupd_aupd. destruct s; reflexivity.
Qed.
Lemma set_cli_ext : forall h f g s, (forall c, f c = g c) -> set_cli h f s = set_cli h g s.
Proof. intros. unfold set_cli, aupd. f_equal. apply map_ext. intros [x y]. simpl. rewrite H. reflexivity. Qed.

Lemma Client_SetType_ok : forall h t s s', Client_SetType h t s = Ok tt s' ->
  exists c tok a b, assoc h (s_heap s) = Some c /\
    s' = set_s_maxusers a (set_s_mymaxusers b (set_cli h (typed t tok) (if_odd (retype_odd c t) O_Retype s))) /\
    (t = T_SERVER -> new_token tok s).
Proof.
  intros h t s s' H. unfold Client_SetType in H. bd H as c s1 H1. rdcli H1.
  bd H as u s2 H2. unfold odd in H2. apply modify_ok in H2.
  fold (retype_odd c t) in H2. fold (if_odd (retype_odd c t) O_Retype s) in H2.
  bd H as u3 s3 H3. apply upd_cli_ok in H3. destruct H3 as (c3 & Hc3 & ->).
  assert (Hs2 : s_heap s2 = s_heap s /\ s_clients s2 = s_clients s).
  { subst s2. unfold if_odd. destruct (retype_odd c t); split; reflexivity. }
  destruct Hs2 as [Hh Hcl].
  bd H as u4 s4 H4. apply Adjust_Counters_ok in H. destruct H as (a & b & ->).
  change (set_s_heap (aupd h (set_cl_type t) (s_heap s2)) s2) with (set_cli h (set_cl_type t) s2) in H4.
  unfold whenM in H4. destruct (ctype_eqb t T_SERVER) eqn:Et.
  - unfold Generate_MyToken in H4. bd H4 as l s5 H5. unfold Clients in H5. rdgets H5.
    bd H4 as used s6 H6. cbn [s_clients set_cli set_s_heap] in H6. apply mseq_tokens_ok in H6. destruct H6 as [-> Hu].
    apply upd_cli_ok in H4. destruct H4 as (c4 & _ & ->).
    set (tok := gen_token (S (List.length used)) used 2). change (set_s_heap (aupd h (set_cl_mytoken tok) (s_heap (set_cli h (set_cl_type t) s2))) (set_cli h (set_cl_type t) s2))
      with (set_cli h (set_cl_mytoken tok) (set_cli h (set_cl_type t) s2)).
    rewrite set_cli_cli. exists c, tok, a, b. split; auto. split.
    + unfold typed. rewrite Et. subst s2. reflexivity.
    + intros _. exists used. split; auto. rewrite <- Hcl. eapply Forall2_imp; [|exact Hu].
      intros x z (cx & Hx & Hz). unfold set_cli in Hx. cbn [s_heap set_s_heap] in Hx. rewrite assoc_aupd, Hh in Hx.
      destruct (Nat.eqb h x); [|eauto]. destruct (assoc x (s_heap s)); [|discriminate]. simpl in Hx.
      inversion Hx; subst. eexists; split; eauto.
  - rdret H4. exists c, 0%Z, a, b. split; auto. split.
    + unfold typed. rewrite Et. subst s2. reflexivity.
    + intros ->. discriminate.
Qed.

(** ---- a new client ---- *)
Record fresh_client (idx : option connid) (intro : handle) (top : option handle) (t : ctype) (id modes : option bytes)
    (hops token : Z) (s : state) (c : client) : Prop := mk_fresh {
  fr_time : cl_starttime c = s_now s;
  fr_type : cl_type c = t; fr_conn : cl_conn c = idx; fr_intro : cl_introducer c = Some intro; fr_top : cl_topserver c = top;
  fr_id : cl_id c = match id with Some i => strlcpy CLIENT_ID_LEN i | None => [] end;
  fr_hash : cl_hash c = match id with Some i => Hash (strlcpy CLIENT_ID_LEN i) | None => 0%N end;
  fr_modes : cl_modes c = match modes with Some m => strlcpy CLIENT_MODE_LEN m | None => [] end;
  fr_hops : cl_hops c = hops; fr_token : cl_token c = token;
  fr_mytoken : if ctype_eqb t T_SERVER then new_token (cl_mytoken c) s else cl_mytoken c = (-1)%Z;
  fr_flags : cl_flags c = []; fr_sizes : csizes c }.

Lemma strlcpy_len : forall n s, 0 < n -> List.length (strlcpy n s) < n.
Proof. intros. pose proof (strlcpy_length n s H). lia. Qed.
Lemma strlcpy_le : forall n s, List.length (strlcpy n s) <= List.length s.
Proof. intros. unfold strlcpy. destruct (n <=? List.length s); [rewrite firstn_length|]; lia. Qed.

Definition with_new (h : handle) (c : client) (s : state) : state := set_s_next (S h) (set_s_heap ((h, c) :: s_heap s) s).
Lemma assoc_new : forall h c s, assoc h (s_heap (with_new h c s)) = Some c.
Proof. intros. cbn. rewrite Nat.eqb_refl. reflexivity. Qed.
Lemma aupd_fresh : forall A k (f : A -> A) l, ~ In k (map fst l) -> aupd k f l = l.
Proof.
  induction l as [|[j x] l IH]; intros H; auto. cbn in *. destruct (Nat.eqb k j) eqn:E.
  - apply Nat.eqb_eq in E. subst. tauto.
  - unfold aupd in IH. rewrite IH; auto.
Qed.
Lemma set_with_new : forall h f c s, ~ In h (map fst (s_heap s)) ->
  set_s_heap (aupd h f (s_heap (with_new h c s))) (with_new h c s) = with_new h (f c) s.
Proof.
  intros. unfold with_new. cbn [s_heap set_s_heap set_s_next]. replace (aupd h f ((h, c) :: s_heap s)) with ((h, f c) :: s_heap s).
  - destruct s; reflexivity.
  - cbn [aupd map fst snd]. rewrite Nat.eqb_refl. f_equal. symmetry. apply (aupd_fresh _ h f (s_heap s)). auto.
Qed.
Lemma upd_new : forall h f c s a s', ~ In h (map fst (s_heap s)) -> upd_cli h f (with_new h c s) = Ok a s' -> s' = with_new h (f c) s.
Proof. intros h f c s a s' Hf H. apply upd_cli_ok in H. destruct H as (c' & _ & ->). apply set_with_new; auto. Qed.
Lemma cli_new : forall h c s c' s', cli h (with_new h c s) = Ok c' s' -> c' = c /\ s' = with_new h c s.
Proof. intros h c s c' s' H. apply cli_ok in H. destruct H as [H ->]. rewrite assoc_new in H. inversion H. auto. Qed.

(** sizes through the setters *)
Lemma cs_host : forall x c, csizes c -> List.length x < CLIENT_HOST_LEN -> csizes (set_cl_host x c).
Proof. intros x c [] H. split; auto. Qed.
Lemma cs_user : forall x c, csizes c -> List.length x < CLIENT_USER_LEN -> csizes (set_cl_user x c).
Proof. intros x c [] H. split; auto. Qed.
Lemma cs_info : forall x c, csizes c -> List.length x < CLIENT_INFO_LEN -> csizes (set_cl_info x c).
Proof. intros x c [] H. split; auto. Qed.
Lemma cs_set_id : forall u id c, csizes c -> csizes (set_id u id c).
Proof.
  intros u id c H. unfold set_id. cbv zeta. assert (csizes (set_cl_hash (Hash (strlcpy CLIENT_ID_LEN id)) (set_cl_id (strlcpy CLIENT_ID_LEN id) c))).
  { destruct H. split; auto. }
  destruct u; auto. apply cs_user; [apply cs_info; auto|]; apply strlcpy_len; unfold CLIENT_INFO_LEN, CLIENT_USER_LEN; lia.
Qed.
Lemma cs_set_user : forall u x i c, csizes c -> csizes (set_user u x i c).
Proof.
  intros u x i c H. unfold set_user. apply cs_user; auto. destruct u; [apply strlcpy_len; unfold CLIENT_USER_LEN; lia|].
  destruct i; [apply strlcpy_len; unfold CLIENT_USER_LEN; lia|]. cbn [List.length].
  pose proof (strlcpy_len (CLIENT_USER_LEN - 1) x). unfold CLIENT_USER_LEN in *. lia.
Qed.
Lemma cs_set_info : forall u x c, csizes c -> csizes (set_info u x c).
Proof. intros. unfold set_info. apply cs_info; auto. apply strlcpy_len. unfold CLIENT_INFO_LEN; lia. Qed.

Lemma Init_New_Client_ok : forall idx intro top t id user host info hops token modes idented s h s',
  Init_New_Client idx intro top t id user host info hops token modes idented s = Ok h s' ->
  ~ In (s_next s) (map fst (s_heap s)) -> ~ In (s_next s) (s_clients s) ->
  h = s_next s /\ exists c a b,
    fresh_client idx intro top t id modes hops token s c /\
    s' = set_s_maxusers a (set_s_mymaxusers b (set_s_clients (h :: s_clients s) (with_new h c s))).
Proof.
  intros idx intro top t id user host info hops token modes idented s h s' H Hf Hf2. unfold Init_New_Client in H.
  bd H as h0 s0 H0. rdgets H0. bd H as tm s0 H0. unfold now in H0. rdgets H0. set (h0 := s_next s) in *.
  bd H as u1 s1 H1. apply modify_ok in H1.
  set (c0 := set_cl_starttime (s_now s) (set_cl_conn idx (set_cl_introducer (Some intro) (set_cl_topserver top (set_cl_type t new_client))))) in *.
  change (s1 = with_new h0 c0 s) in H1. subst s1.
  assert (Hsz : csizes c0). { split; try exact I; apply Nat.ltb_lt; reflexivity. }
  bd H as u2 s2 H2.
  assert (E2 : exists u, s2 = with_new h0 (match id with Some i => set_id u i c0 | None => c0 end) s).
  { destruct id; cbn [opt] in H2.
    - unfold Client_SetID in H2. bd H2 as u sx Hx. unfold cf in Hx. rdgets Hx. exists (cf_cloakusertonick (s_conf (with_new h0 c0 s))). eapply upd_new; eauto.
    - rdret H2. exists true. reflexivity. }
  clear H2. destruct E2 as [v ->]. set (c1 := match id with Some i => set_id v i c0 | None => c0 end) in *.
  assert (F1 : cl_starttime c1 = s_now s /\ cl_type c1 = t /\ cl_conn c1 = idx /\ cl_introducer c1 = Some intro /\ cl_topserver c1 = top /\
    cl_id c1 = match id with Some i => strlcpy CLIENT_ID_LEN i | None => [] end /\
    cl_hash c1 = match id with Some i => Hash (strlcpy CLIENT_ID_LEN i) | None => 0%N end /\ cl_modes c1 = [] /\
    cl_mytoken c1 = (-1)%Z /\ cl_flags c1 = [] /\ csizes c1).
  { unfold c1. destruct id; [|repeat split; auto; try apply Hsz]. repeat split; try (unfold set_id; destruct v; reflexivity); apply (cs_set_id v b c0 Hsz). }
  clearbody c1. clear c0 Hsz.
  bd H as u3 s3 H3.
  assert (E3 : exists w, s3 = with_new h0 (match user with Some i => set_user w i idented c1 | None => c1 end) s).
  { destruct user; cbn [opt] in H3.
    - unfold Client_SetUser in H3. bd H3 as u sx Hx. unfold cf in Hx. rdgets Hx. exists (cf_cloakusertonick (s_conf (with_new h0 c1 s))). eapply upd_new; eauto.
    - rdret H3. exists true. reflexivity. }
  clear H3. destruct E3 as [w ->]. set (c2 := match user with Some i => set_user w i idented c1 | None => c1 end) in *.
  assert (F2 : cl_starttime c2 = s_now s /\ cl_type c2 = t /\ cl_conn c2 = idx /\ cl_introducer c2 = Some intro /\ cl_topserver c2 = top /\
    cl_id c2 = match id with Some i => strlcpy CLIENT_ID_LEN i | None => [] end /\
    cl_hash c2 = match id with Some i => Hash (strlcpy CLIENT_ID_LEN i) | None => 0%N end /\ cl_modes c2 = [] /\
    cl_mytoken c2 = (-1)%Z /\ cl_flags c2 = [] /\ csizes c2).
  { unfold c2. destruct user; [|exact F1]. destruct F1 as (?&?&?&?&?&?&?&?&?&?&Hz). do 10 (split; [assumption|]). apply cs_set_user; auto. }
  clearbody c2. clear F1 c1.
  bd H as u4 s4 H4.
  assert (E4 : exists x, s4 = with_new h0 (match host with Some _ => set_cl_host x c2 | None => c2 end) s /\ List.length x < CLIENT_HOST_LEN).
  { destruct host; cbn [opt] in H4.
    - unfold Client_SetHostname in H4. bd H4 as c sx Hx. apply cli_new in Hx. destruct Hx as [-> ->].
      bd H4 as ck sx Hx. unfold cf in Hx. rdgets Hx. bd H4 as sa sx Hx. unfold cf in Hx. rdgets Hx. cbv zeta in H4.
      match type of H4 with (if ?b then _ else _) _ = _ => destruct b end; apply upd_new in H4; auto; eexists; (split; [exact H4|]);
        apply strlcpy_len; unfold CLIENT_HOST_LEN; lia.
    - rdret H4. exists []. split; auto. unfold CLIENT_HOST_LEN. cbn. lia. }
  clear H4. destruct E4 as (x & -> & Hx). set (c3 := match host with Some _ => set_cl_host x c2 | None => c2 end) in *.
  assert (F3 : cl_starttime c3 = s_now s /\ cl_type c3 = t /\ cl_conn c3 = idx /\ cl_introducer c3 = Some intro /\ cl_topserver c3 = top /\
    cl_id c3 = match id with Some i => strlcpy CLIENT_ID_LEN i | None => [] end /\
    cl_hash c3 = match id with Some i => Hash (strlcpy CLIENT_ID_LEN i) | None => 0%N end /\ cl_modes c3 = [] /\
    cl_mytoken c3 = (-1)%Z /\ cl_flags c3 = [] /\ csizes c3).
  { unfold c3. destruct host; [|exact F2]. destruct F2 as (?&?&?&?&?&?&?&?&?&?&Hz). do 10 (split; [assumption|]). apply cs_host; auto. }
  clearbody c3. clear F2 c2.
  bd H as u5 s5 H5.
  assert (E5 : exists w, s5 = with_new h0 (match info with Some i => set_info w i c3 | None => c3 end) s).
  { destruct info; cbn [opt] in H5.
    - unfold Client_SetInfo in H5. bd H5 as u sx Hy. unfold cf in Hy. rdgets Hy. exists (cf_cloakusertonick (s_conf (with_new h0 c3 s))). eapply upd_new; eauto.
    - rdret H5. exists true. reflexivity. }
  clear H5. destruct E5 as [w5 ->]. set (c4 := match info with Some i => set_info w5 i c3 | None => c3 end) in *.
  assert (F4 : cl_starttime c4 = s_now s /\ cl_type c4 = t /\ cl_conn c4 = idx /\ cl_introducer c4 = Some intro /\ cl_topserver c4 = top /\
    cl_id c4 = match id with Some i => strlcpy CLIENT_ID_LEN i | None => [] end /\
    cl_hash c4 = match id with Some i => Hash (strlcpy CLIENT_ID_LEN i) | None => 0%N end /\ cl_modes c4 = [] /\
    cl_mytoken c4 = (-1)%Z /\ cl_flags c4 = [] /\ csizes c4).
  { unfold c4. destruct info; [|exact F3]. destruct F3 as (?&?&?&?&?&?&?&?&?&?&Hz). do 10 (split; [assumption|]). apply cs_set_info; auto. }
  clearbody c4. clear F3 c3.
  bd H as u6 s6 H6. apply upd_new in H6; auto. subst s6.
  bd H as u7 s7 H7.
  assert (E7 : s7 = with_new h0 (set_cl_modes (match modes with Some m => strlcpy CLIENT_MODE_LEN m | None => [] end) (set_cl_token token (set_cl_hops hops c4))) s).
  { destruct modes; cbn [opt] in H7.
    - unfold Client_SetModes in H7. apply upd_new in H7; auto.
    - rdret H7. f_equal. destruct F4 as (_&_&_&_&_&_&_&Hm&_). destruct c4. cbn in Hm. subst. reflexivity. }
  subst s7. clear H7. set (c5 := set_cl_modes _ _) in *.
  assert (F5 : cl_starttime c5 = s_now s /\ cl_type c5 = t /\ cl_conn c5 = idx /\ cl_introducer c5 = Some intro /\ cl_topserver c5 = top /\
    cl_id c5 = match id with Some i => strlcpy CLIENT_ID_LEN i | None => [] end /\
    cl_hash c5 = match id with Some i => Hash (strlcpy CLIENT_ID_LEN i) | None => 0%N end /\
    cl_modes c5 = match modes with Some m => strlcpy CLIENT_MODE_LEN m | None => [] end /\
    cl_hops c5 = hops /\ cl_token c5 = token /\ cl_mytoken c5 = (-1)%Z /\ cl_flags c5 = [] /\ csizes c5).
  { unfold c5. destruct F4 as (?&?&?&?&?&?&?&?&?&?&Hz). do 7 (split; [assumption|]). split; [reflexivity|]. do 2 (split; [reflexivity|]).
    do 2 (split; [assumption|]). destruct Hz. split; auto. }
  clearbody c5. clear F4 c4.
  bd H as u8 s8 H8.
  assert (E8 : exists c6, s8 = with_new h0 c6 s /\ (exists tok, c6 = if ctype_eqb t T_SERVER then set_cl_mytoken tok c5 else c5) /\
     (if ctype_eqb t T_SERVER then new_token (cl_mytoken c6) s else cl_mytoken c6 = (-1)%Z)).
  { unfold whenM in H8. destruct (ctype_eqb t T_SERVER).
    - unfold Generate_MyToken in H8. bd H8 as l sx Hl. unfold Clients in Hl. rdgets Hl. bd H8 as used sy Hu.
      cbn [s_clients with_new set_s_heap set_s_next] in Hu. apply mseq_tokens_ok in Hu. destruct Hu as [-> Hu].
      apply upd_new in H8; auto. eexists. split; [exact H8|]. split; [eexists; reflexivity|].
      exists used. split; [reflexivity|].
      clear - Hu Hf2. fold h0 in Hf2. induction Hu; constructor.
      + destruct H as (c & Hc & Hz). cbn in Hc. destruct (Nat.eqb x h0) eqn:E; [|eauto].
        apply Nat.eqb_eq in E. subst. destruct Hf2. left; auto.
      + apply IHHu. intro. apply Hf2. right; auto.
    - rdret H8. exists c5. split; auto. split; [exists 0%Z; reflexivity|]. apply F5. }
  clear H8. destruct E8 as (c6 & -> & (tok & Hc6) & Htok).
  bd H as a s9 H9. unfold Client_HasMode in H9. bd H9 as cx sx Hx9. apply cli_new in Hx9. destruct Hx9 as [-> ->]. rdret H9.
  bd H as u10 s10 H10.
  assert (E10 : exists c7, s10 = with_new h0 c7 s /\ (c7 = c6 \/ c7 = set_cl_away (Some DEFAULT_AWAY_MSG) c6)).
  { unfold whenM in H10. match type of H10 with (if ?b then _ else _) _ = _ => destruct b end.
    - apply upd_new in H10; auto. eauto.
    - rdret H10. eauto. }
  clear H10. destruct E10 as (c7 & -> & H7).
  bd H as u11 s11 H11. apply modify_ok in H11. subst s11. bd H as u12 s12 H12. destruct u12. apply Adjust_Counters_ok in H12.
  destruct H12 as (m1 & m2 & ->). rdret H. split; auto. exists c7, m1, m2. split; [|reflexivity].
  assert (F6 : fresh_client idx intro top t id modes hops token s c6).
  { destruct F5 as (?&?&?&?&?&?&?&?&?&?&?&?&Hz). destruct (ctype_eqb t T_SERVER) eqn:Et; subst c6.
    - split; cbn [cl_starttime cl_type cl_conn cl_introducer cl_topserver cl_id cl_hash cl_modes cl_hops cl_token cl_mytoken cl_flags set_cl_mytoken] in *; auto.
      + rewrite Et. exact Htok.
      + destruct Hz. split; auto.
    - split; auto. rewrite Et. auto. }
  destruct H7 as [-> | ->]; auto. destruct F6. split; auto. destruct fr_sizes0. split; auto.
  cbn. unfold CLIENT_AWAY_LEN. lia.
Qed.

(** ---- channels ---- *)
Lemma Channel_Create_ok : forall name s ch s', Channel_Create name s = Ok ch s' ->
  ch = s_chnext s /\ s' = set_s_chnext (S ch) (set_s_chans ((ch, new_channel name (s_now s)) :: s_chans s) s).
Proof.
  intros name s ch s' H. unfold Channel_Create in H. bd H as c s1 H1. rdgets H1. bd H as t s1 H1. unfold now in H1. rdgets H1.
  bd H as u s1 H1. apply modify_ok in H1. subst. rdret H. auto.
Qed.
Lemma chaninfo_create_ok : forall name s ch s', chaninfo_create name s = Ok ch s' -> ch = s_chnext s /\
  s' = set_s_chnext (S ch) (set_s_chans ((ch, new_channel name (s_now s)) :: s_chans s) (if_odd (negb (valid_chan name)) (O_Chan ch) (if_odd true (O_Empty ch) s))).
Proof.
  intros name s ch s' H. unfold chaninfo_create in H. bd H as c s1 H1. rdgets H1. bd H as u s2 H2. apply modify_ok in H2. subst s2. bd H as u3 s3 H3. apply modify_ok in H3. subst s3.
  apply Channel_Create_ok in H. destruct H as (-> & ->). unfold if_odd. destruct (valid_chan name); split; reflexivity.
Qed.
Lemma Add_Client_ok : forall ch h s s', Add_Client ch h s = Ok tt s' ->
  exists c cc, assoc h (s_heap s) = Some c /\ assoc ch (s_chans s) = Some cc /\
  s' = set_s_members (mkMember h ch [] :: s_members s) (if_odd (negb (userish (cl_type c))) (O_Member ch h) s).
Proof.
  intros ch h s s' H. unfold Add_Client in H. bd H as c s1 H1. rdcli H1. bd H as cc s2 H2. apply chan_ok in H2. destruct H2 as [H2 ->].
  bd H as u s3 H3. unfold odd in H3. apply modify_ok in H3. apply modify_ok in H. exists c, cc. split; auto. split; auto. subst.
  destruct (cl_type c); reflexivity.
Qed.
Lemma Free_Client_ok : forall h s s', Free_Client h s = Ok tt s' ->
  exists c, assoc h (s_heap s) = Some c /\
  s' = set_s_heap (adel h (s_heap s)) (if_odd (heq h This_Server) O_Self s).
Proof.
  intros h s s' H. unfold Free_Client in H. bd H as c s1 H1. rdcli H1. bd H as u s3 H3. unfold odd in H3. apply modify_ok in H3.
  apply modify_ok in H. exists c. split; auto. subst. unfold if_odd. destruct (heq h This_Server); reflexivity.
Qed.
Lemma RegisterWhowas_ok : forall h s s', Client_RegisterWhowas h s = Ok tt s' ->
  exists s1, wr s s1 /\ (s' = s1 \/ exists slot e, (0 <= slot < MAX_WHOWAS)%Z /\
     s' = set_s_lastww slot (set_s_whowas (upd_nth (Z.to_nat slot) (fun _ => e) (s_whowas s1)) s1)).
Proof.
  intros h s s' H. unfold Client_RegisterWhowas in H. bd H as mp s1 H1. unfold cf in H1. rdgets H1.
  destruct (cf_moreprivacy (s_conf s)). { rdret H. exists s. split; [reflexivity|auto]. }
  bd H as c s1 H1. rdcli H1. bd H as t s1 H2. unfold now in H2. rdgets H2.
  destruct (s_now s - cl_starttime c <? 30)%Z. { rdret H. exists s. split; [reflexivity|auto]. }
  bd H as last s1 H2. rdgets H2. cbv zeta in H. set (slot := if _ || _ then _ else _) in H.
  bd H as id s1 H2. bd H as us s2 H3. bd H as ho s3 H4. bd H as inf s4 H5. bd H as it s5 H6. bd H as srv s6 H7. apply modify_ok in H.
  exists s6. split.
  - transitivity s1; [exact (Client_ID_rel _ _ _ _ H2)|]. transitivity s2; [exact (Client_User_rel _ _ _ _ H3)|].
    transitivity s3; [exact (Client_HostnameDisplayed_rel _ _ _ _ H4)|]. transitivity s4; [exact (Client_Info_rel _ _ _ _ H5)|].
    transitivity s5; [exact (Client_Introducer_rel _ _ _ _ H6)|]. exact (Client_ID_rel _ _ _ _ H7).
  - right. exists slot. eexists. split; [|exact H]. unfold slot. unfold MAX_WHOWAS.
    destruct (64 <=? s_lastww s + 1)%Z eqn:E1; cbn [orb]; [lia|]. destruct (s_lastww s + 1 <? 0)%Z eqn:E2; lia.
Qed.
