(** Which tables the elementary changes leave alone. *)
From Coq Require Import List Ascii String ZArith NArith Bool Lia.
From Coq Require Import Relations RelationClasses.
From Verif Require Import Bytes Strl Match Lists Hash ParseReq State Messages Monad Core Write Info Chan Mode Msg Login Oper Server Dispatch Conn Rel RelWrite RelInfo RelBase RelChan RelSrv RelInit RelKey RelCmd RelComp WF RelGone.
Import ListNotations.
Local Open Scope m_scope.

(** what identifies a connection *)
Definition co_key (c c' : conn) : Prop := co_open c' = co_open c /\ co_closing c' = co_closing c /\ co_client c' = co_client c /\ co_ip c' = co_ip c.
Lemma co_key_refl : Reflexive co_key. Proof. intro c. repeat split. Qed.
Lemma co_key_trans : Transitive co_key. Proof. intros a b c (A&B&C&D) (E&F&G&H). repeat split; congruence. Qed.
Lemma co_same_key : forall c c', co_same c c' -> co_key c c'. Proof. intros c c' (A&B&C&D&_). repeat split; auto. Qed.
Lemma orel_imp : forall A (R Q : A -> A -> Prop) a b, (forall x y, R x y -> Q x y) -> orel R a b -> orel Q a b.
Proof. intros A R Q [x|] [y|] H; cbn; auto. Qed.

Record fconn (s s' : state) : Prop := mk_fconn {
  fc_keys : map fst (s_conns s') = map fst (s_conns s); fc_con : forall i, orel co_key (assoc i (s_conns s)) (assoc i (s_conns s')); fc_num : s_numconn s' = s_numconn s }.
Record fheap (s s' : state) : Prop := mk_fheap {
  fh_keys : map fst (s_heap s') = map fst (s_heap s); fh_clients : s_clients s' = s_clients s; fh_next : s_next s' = s_next s;
  fh_cli : forall h, orel cl_same (assoc h (s_heap s)) (assoc h (s_heap s')) }.
Record fchan (s s' : state) : Prop := mk_fchan { fk_chans : s_chans s' = s_chans s; fk_next : s_chnext s' = s_chnext s }.
Definition fmb (s s' : state) : Prop := s_members s' = s_members s.
Definition fodd (s s' : state) : Prop := s_odd s' = s_odd s.
Definition fconf (s s' : state) : Prop := s_conf s' = s_conf s.
#[export] Instance fconn_po : PreOrder fconn.
Proof.
  split; [intro s; split; auto; intro; apply orel_refl, co_key_refl|]. intros a b c [] []. split; try congruence. intro. eapply orel_trans; eauto. apply co_key_trans.
Qed.
#[export] Instance fheap_po : PreOrder fheap.
Proof.
  split; [intro s; split; auto; intro; apply orel_refl, cl_same_refl|]. intros a b c [] []. split; try congruence. intro. eapply orel_trans; eauto. apply cl_same_trans.
Qed.
#[export] Instance fchan_po : PreOrder fchan.
Proof. split; [intro s; split; auto|]. intros a b c [] []. split; congruence. Qed.
#[export] Instance fmb_po : PreOrder fmb.
Proof. split; [intro s; reflexivity|]. intros a b c H1 H2. unfold fmb in *. congruence. Qed.
#[export] Instance fodd_po : PreOrder fodd.
Proof. split; [intro s; reflexivity|]. intros a b c H1 H2. unfold fodd in *. congruence. Qed.
#[export] Instance fconf_po : PreOrder fconf.
Proof. split; [intro s; reflexivity|]. intros a b c H1 H2. unfold fconf in *. congruence. Qed.
Lemma fconn_wr : forall s s', wr s s' -> fconn s s'.
Proof.
  intros s s' W. destruct (wr_same _ _ W), (wr_tabs _ _ W). split; auto. intro i. eapply orel_imp; [apply co_same_key|]. auto.
Qed.
Lemma fheap_wr : forall s s', wr s s' -> fheap s s'.
Proof. intros s s' W. destruct (wr_same _ _ W), (wr_tabs _ _ W). split; auto. Qed.
Lemma fchan_wr : forall s s', wr s s' -> fchan s s'.
Proof. intros s s' W. destruct (wr_same _ _ W). split; auto. Qed.
Lemma fmb_wr : forall s s', wr s s' -> fmb s s'.
Proof. intros s s' W. destruct (wr_same _ _ W). auto. Qed.
Lemma fodd_wr : forall s s', wr s s' -> fodd s s'.
Proof. intros s s' W. destruct (wr_same _ _ W). auto. Qed.
Lemma fconf_wr : forall s s', wr s s' -> fconf s s'.
Proof. intros s s' W. destruct (wr_same _ _ W). auto. Qed.
Lemma set_con_fconn : forall i f s, (forall c, co_key c (f c)) -> fconn s (set_con i f s).
Proof.
  intros i f s H. split; unfold set_con; cbn; auto. apply aupd_keys. intro j. rewrite assoc_aupd. destruct (Nat.eqb i j); [|apply orel_refl, co_key_refl].
  destruct (assoc j (s_conns s)); cbn; auto.
Qed.
Lemma cconn_key : forall c c', cconn c c' -> co_key c c'.
Proof. intros c c' []. repeat split; auto. Qed.
Lemma cread_key : forall c c', cread c c' -> co_key c c'.
Proof. intros c c' []. repeat split; auto. Qed.

Definition tconn (l : lab) : bool := match l with L_remove | L_coclose | L_codel | L_accept | L_newserver | L_close | L_destroy | L_register => true | _ => false end.
Definition theap (l : lab) : bool := match l with
  | L_remove | L_meta | L_attr | L_away | L_intro | L_id | L_idany | L_register | L_umode | L_oper | L_type | L_type0 | L_new | L_service | L_newlocal | L_unlink | L_free | L_destroy | L_close | L_accept | L_newserver => true
  | _ => false end.
Definition tchan (l : lab) : bool := match l with
  | L_create | L_create_any | L_create_pre | L_remove | L_delchan | L_chadd | L_chdel | L_setmodes | L_topic | L_key | L_limit | L_keyfile | L_lists | L_check | L_useinv | L_addinv | L_destroy | L_close | L_register => true
  | _ => false end.
Definition tmb (l : lab) : bool := match l with L_remove | L_create | L_addmb | L_delmb | L_mbmode | L_destroy | L_close | L_register => true | _ => false end.
Definition todd (l : lab) : bool := match l with
  | L_remove | L_type | L_type0 | L_new | L_service | L_create | L_create_any | L_chdel | L_setmodes | L_addmb | L_free | L_destroy | L_close | L_register => true | _ => false end.

(** [pinv H]: the explicit result of an elementary change *)
Lemma whowas_eq : forall s s', pstep L_whowas s s' -> exists s1, wr s s1 /\ (s' = s1 \/ exists sl e, s' = set_s_lastww sl (set_s_whowas (upd_nth (Z.to_nat sl) (fun _ => e) (s_whowas s1)) s1)).
Proof.
  intros s s' H. inversion H; subst. apply RegisterWhowas_ok in H0. destruct H0 as (s1 & W & E). exists s1. split; auto.
  destruct E as [-> | (sl & e & _ & ->)]; eauto.
Qed.
Lemma type_eq : forall s s', pstep L_type s s' -> exists h c t tok a b, assoc h (s_heap s) = Some c /\ type_ok h t c s /\ (t = T_SERVER -> new_token tok s) /\
  s' = set_s_maxusers a (set_s_mymaxusers b (set_cli h (typed t tok) (if_odd (retype_odd c t) O_Retype s))).
Proof.
  intros s s' H. inversion H; subst. apply Client_SetType_ok in H2. destruct H2 as (c1 & tok & a & b & Hc & -> & T). assert (c1 = c) by congruence. subst. exists h, c, t, tok, a, b. auto.
Qed.
Lemma type0_eq : forall s s', pstep L_type0 s s' -> exists h c t tok a b, assoc h (s_heap s) = Some c /\ type_ok h t c s /\ (t = T_SERVER -> new_token tok s) /\ (t = T_UNKNOWNSERVER \/ t = T_SERVER) /\
  s' = set_s_maxusers a (set_s_mymaxusers b (set_cli h (typed t tok) (if_odd (retype_odd c t) O_Retype s))).
Proof.
  intros s s' H. inversion H; subst. match goal with K : Client_SetType _ _ _ = _ |- _ => apply Client_SetType_ok in K; destruct K as (c1 & tok & a & b & Hc & -> & T) end. assert (c1 = c) by congruence. subst. exists h, c, t, tok, a, b. auto.
Qed.
(** the state with a new remote client *)
Definition with_client (c : client) (a b : Z) (od : bool) (s : state) : state :=
  set_s_maxusers a (set_s_mymaxusers b (set_s_clients (s_next s :: s_clients s) (with_new (s_next s) c (if_odd od O_Retype s)))).
Record born_remote (c : client) (s : state) : Prop := mk_born {
  bn_conn : cl_conn c = None; bn_intro : exists i, cl_introducer c = Some i /\ intro_ok i (match cl_type c with T_SERVER => T_SERVER | _ => T_USER end) s;
  bn_type : cl_type c = T_USER \/ cl_type c = T_SERVER \/ cl_type c = T_GOTNICK \/ cl_type c = T_SERVICE;
  bn_hash : cl_hash c = Hash (cl_id c); bn_len : List.length (cl_id c) < CLIENT_ID_LEN;
  bn_free : cl_type c <> T_SERVICE -> id_free (s_next s) (cl_id c) s;
  bn_modes : exists m, cl_modes c = strlcpy CLIENT_MODE_LEN m;
  bn_token : if ctype_eqb (cl_type c) T_SERVER then new_token (cl_mytoken c) s else cl_mytoken c = (-1)%Z;
  bn_flags : cl_flags c = []; bn_sizes : csizes c; bn_time : cl_starttime c = s_now s }.
Lemma typed_new : forall t tok h c s, ~ In h (map fst (s_heap s)) -> set_cli h (typed t tok) (with_new h c s) = with_new h (typed t tok c) s.
Proof. intros. unfold set_cli. apply set_with_new. auto. Qed.
Lemma born_fresh : forall intro top t id modes hops token s c, fresh_client None intro top t (Some id) modes hops token s c ->
  t = T_USER \/ t = T_SERVER -> intro_ok intro t s -> id_free (s_next s) (strlcpy CLIENT_ID_LEN id) s -> born_remote c s.
Proof.
  intros intro top t id modes hops token s c [] Ht Hi Hf. split; auto.
  - exists intro. split; auto. rewrite fr_type. destruct Ht as [-> | ->]; auto.
  - rewrite fr_type. tauto.
  - rewrite fr_hash, fr_id. auto.
  - rewrite fr_id. apply strlcpy_len. unfold CLIENT_ID_LEN; lia.
  - rewrite fr_id. auto.
  - destruct modes as [m|]; [eauto|]. exists []. rewrite fr_modes. reflexivity.
  - rewrite fr_type. auto.
Qed.
Lemma born_retype : forall intro id modes hops token t tok s c, fresh_client None intro None T_USER (Some id) modes hops token s c ->
  t = T_GOTNICK \/ t = T_SERVICE -> intro_ok intro T_USER s -> (t = T_GOTNICK -> id_free (s_next s) (strlcpy CLIENT_ID_LEN id) s) -> born_remote (typed t tok c) s.
Proof.
  intros intro id modes hops token t tok s c [] Ht Hi Hf. assert (E : typed t tok c = set_cl_type t c) by (unfold typed; destruct Ht as [-> | ->]; reflexivity). rewrite E. split; cbn; auto.
  - exists intro. split; auto. destruct Ht as [-> | ->]; auto.
  - rewrite fr_hash, fr_id. auto.
  - rewrite fr_id. apply strlcpy_len. unfold CLIENT_ID_LEN; lia.
  - rewrite fr_id. destruct Ht as [-> | ->]; [auto|congruence].
  - destruct modes as [m|]; [eauto|]. exists []. rewrite fr_modes. reflexivity.
  - destruct Ht as [-> | ->]; auto.
  - destruct fr_sizes. split; auto.
Qed.
Lemma new_eq : forall l s s', l = L_new \/ l = L_service -> pstep l s s' -> wf s -> exists c a b, born_remote c s /\ s' = with_client c a b false s.
Proof.
  intros l s s' Hl H W. destruct (wf_fresh _ W) as [F1 F2].
  assert (Z : forall (t : ctype) tok c a b a1 b1, ctype_eqb t T_SERVER = false ->
    set_s_maxusers a1 (set_s_mymaxusers b1 (set_cli (s_next s) (typed t tok) (set_s_maxusers a (set_s_mymaxusers b (set_s_clients (s_next s :: s_clients s) (with_new (s_next s) c s)))))) =
    with_client (typed t tok c) a1 b1 false s).
  { intros. unfold with_client, set_cli. cbn [s_heap set_s_maxusers set_s_mymaxusers set_s_clients if_odd].
    assert (E : aupd (s_next s) (typed t tok) (s_heap (with_new (s_next s) c s)) = s_heap (with_new (s_next s) (typed t tok c) s)).
    { rewrite <- (typed_new t tok _ c s F1). reflexivity. }
    rewrite E. destruct s; reflexivity. }
  assert (ZU : forall t, t = T_GOTNICK \/ t = T_SERVICE -> forall c, cl_type c = T_USER -> retype_odd c t = false).
  { intros t Ht c Hc. unfold retype_odd. rewrite Hc. reflexivity. }
  destruct Hl as [-> | ->]; inversion H; subst; match goal with X : Init_New_Client _ _ _ _ _ _ _ _ _ _ _ _ _ = _ |- _ => rename X into HI end.
  - match goal with X : t = T_USER \/ _ |- _ => rename X into HT end. apply Init_New_Client_ok in HI; auto. destruct HI as (-> & c & a & b & F & ->). exists c, a, b. split; [|reflexivity]. eapply born_fresh; eauto.
  - match goal with X : Client_SetType _ _ _ = _ |- _ => rename X into HS end. apply Init_New_Client_ok in HI; auto. destruct HI as (-> & c & a & b & F & ->). apply Client_SetType_ok in HS. destruct HS as (c1 & tok & a1 & b1 & Hc1 & -> & _).
    cbn in Hc1. rewrite Nat.eqb_refl in Hc1. inversion Hc1; subst c1. rewrite ZU by (auto; apply F). cbn [if_odd]. exists (typed T_GOTNICK tok c), a1, b1.
    split; [|apply Z; auto]. eapply born_retype; eauto.
  - match goal with X : Client_SetType _ _ _ = _ |- _ => rename X into HS end. apply Init_New_Client_ok in HI; auto. destruct HI as (-> & c & a & b & F & ->). apply Client_SetType_ok in HS. destruct HS as (c1 & tok & a1 & b1 & Hc1 & -> & _).
    cbn in Hc1. rewrite Nat.eqb_refl in Hc1. inversion Hc1; subst c1. rewrite ZU by (auto; apply F). cbn [if_odd]. exists (typed T_SERVICE tok c), a1, b1.
    split; [|apply Z; auto]. eapply born_retype; eauto. discriminate.
Qed.
Lemma addmb_eq : forall ch h s s', Add_Client ch h s = Ok tt s' -> exists c cc, assoc h (s_heap s) = Some c /\ assoc ch (s_chans s) = Some cc /\
  s' = set_s_members (mkMember h ch [] :: s_members s) (if_odd (negb (userish (cl_type c))) (O_Member ch h) s).
Proof.
  intros ch h s s' H. apply Add_Client_ok in H. destruct H as (c & cc & Hc & Hcc & ->). exists c, cc. split; auto.
Qed.
Lemma create_eq : forall s s', pstep L_create s s' -> exists name h c, Channel_Search name s = Ok None s /\ valid_chan name = true /\ assoc h (s_heap s) = Some c /\
  s' = set_s_members (mkMember h (s_chnext s) [] :: s_members s) (if_odd (negb (userish (cl_type c))) (O_Member (s_chnext s) h)
         (set_s_chnext (S (s_chnext s)) (set_s_chans ((s_chnext s, new_channel name (s_now s)) :: s_chans s) s))).
Proof.
  intros s s' H. inversion H; subst. rename H2 into HC, H3 into HA. apply Channel_Create_ok in HC. destruct HC as (-> & ->). apply addmb_eq in HA. destruct HA as (c & cc & Hc & Hcc & ->).
  exists name, h, c. auto.
Qed.
Lemma create_any_eq : forall s s', pstep L_create_any s s' -> exists name, Channel_Search name s = Ok None s /\
  s' = set_s_chnext (S (s_chnext s)) (set_s_chans ((s_chnext s, new_channel name (s_now s)) :: s_chans s) (if_odd (negb (valid_chan name)) (O_Chan (s_chnext s)) (if_odd true (O_Empty (s_chnext s)) s))).
Proof. intros s s' H. inversion H; subst. rename H1 into HC. apply chaninfo_create_ok in HC. destruct HC as (-> & ->). eauto. Qed.
Lemma create_pre_eq : forall s s', wf s -> pstep L_create_pre s s' -> exists name m, Channel_Search name s = Ok None s /\ valid_chan name = true /\ (m = B "P" \/ m = B "mnPt") /\
  s' = set_s_chnext (S (s_chnext s)) (set_s_chans ((s_chnext s, set_ch_modes m (new_channel name (s_now s))) :: s_chans s) s).
Proof.
  intros s s' W H. inversion H; subst. exists name, m. split; auto. split; auto. split; auto. unfold set_chan. cbn [s_chans set_s_chans set_s_chnext].
  unfold aupd. cbn [map fst snd]. rewrite Nat.eqb_refl.
  assert (E : map (fun p : nat * channel => if Nat.eqb (s_chnext s) (fst p) then (fst p, set_ch_modes m (snd p)) else p) (s_chans s) = s_chans s).
  { rewrite <- (map_id (s_chans s)) at 2. apply map_ext_in. intros [j y] Hy. cbn. destruct (Nat.eqb_spec (s_chnext s) j); auto. exfalso. apply (in_map fst) in Hy. apply (wf_chnext _ W) in Hy. cbn in Hy. lia. }
  rewrite E. destruct s; reflexivity.
Qed.
Lemma free_eq : forall s s', pstep L_free s s' -> exists h c, assoc h (s_heap s) = Some c /\ ~ In h (s_clients s) /\ s' = set_s_heap (adel h (s_heap s)) (if_odd (heq h This_Server) O_Self s).
Proof. intros s s' H. inversion H; subst. apply Free_Client_ok in H2. destruct H2 as (c1 & _ & ->). eauto. Qed.
Ltac stcbn := unfold set_cli, set_chan, set_con, with_client, with_new, if_odd in *;
  cbn [s_heap s_next s_clients s_chans s_chnext s_members s_conns s_numconn s_odd s_conf set_s_heap set_s_chans set_s_conns set_s_members set_s_glines set_s_klines set_s_servers
       set_s_sigquit set_s_sigrehash set_s_sigrestart set_s_wcounter set_s_rnd set_s_now set_s_lastww set_s_whowas set_s_numconn set_s_odd set_s_clients set_s_next set_s_chnext
       set_s_maxusers set_s_mymaxusers] in *.
Ltac ifs := repeat match goal with |- context [if ?b then _ else _] => destruct b end.
Ltac fr_triv := split; [reflexivity | intro; apply orel_refl, co_key_refl | reflexivity].
Ltac fh_triv := split; [reflexivity | reflexivity | reflexivity | intro; apply orel_refl, cl_same_refl].
Lemma frame_conn : forall l s s', tconn l = false -> wf s -> pstep l s s' -> l <> L_newlocal -> fconn s s'.
Proof.
  intros l s s' T W H N. destruct l; try discriminate T; try congruence;
    try (inversion H; subst; fr_triv); try (inversion H; subst; unfold set_chan, if_odd; ifs; fr_triv).
  - apply type_eq in H. destruct H as (h & c & t & tok & a & b & _ & _ & _ & ->). stcbn. ifs; fr_triv.
  - apply type0_type, type_eq in H. destruct H as (h & c & t & tok & a & b & _ & _ & _ & ->). stcbn. ifs; fr_triv.
  - apply new_eq in H; auto. destruct H as (c & a & b & _ & ->). fr_triv.
  - apply new_eq in H; auto. destruct H as (c & a & b & _ & ->). fr_triv.
  - apply create_eq in H. destruct H as (n & h & c & _ & _ & _ & ->). stcbn. ifs; fr_triv.
  - apply create_any_eq in H. destruct H as (n & _ & ->). stcbn. ifs; fr_triv.
  - inversion H; subst. apply addmb_eq in H1. destruct H1 as (c & cc & _ & _ & ->). stcbn. ifs; fr_triv.
  - apply whowas_eq in H. destruct H as (s1 & Wr & E). transitivity s1; [apply fconn_wr; auto|]. destruct E as [-> | (sl & e & ->)]; fr_triv.
  - inversion H; subst. apply set_con_fconn. intro c. apply cconn_key. auto.
  - inversion H; subst. apply set_con_fconn. intro c. apply cread_key. auto.
  - apply free_eq in H. destruct H as (h & c & _ & _ & ->). stcbn. ifs; fr_triv.
Qed.
Lemma frame_heap : forall l s s', theap l = false -> wf s -> pstep l s s' -> fheap s s'.
Proof.
  intros l s s' T W H. destruct l; try discriminate T;
    try (inversion H; subst; fh_triv); try (inversion H; subst; unfold set_chan, if_odd; ifs; fh_triv).
  - apply create_eq in H. destruct H as (n & h & c & _ & _ & _ & ->). stcbn. ifs; fh_triv.
  - apply create_any_eq in H. destruct H as (n & _ & ->). stcbn. ifs; fh_triv.
  - inversion H; subst. apply addmb_eq in H1. destruct H1 as (c & cc & _ & _ & ->). stcbn. ifs; fh_triv.
  - apply whowas_eq in H. destruct H as (s1 & Wr & E). transitivity s1; [apply fheap_wr; auto|]. destruct E as [-> | (sl & e & ->)]; fh_triv.
Qed.
Lemma frame_chan : forall l s s', tchan l = false -> wf s -> pstep l s s' -> l <> L_newlocal -> fchan s s'.
Proof.
  intros l s s' T W H N. destruct l; try discriminate T; try congruence;
    try (inversion H; subst; split; reflexivity).
  - apply type_eq in H. destruct H as (h & c & t & tok & a & b & _ & _ & _ & ->). stcbn. ifs; split; reflexivity.
  - apply type0_type, type_eq in H. destruct H as (h & c & t & tok & a & b & _ & _ & _ & ->). stcbn. ifs; split; reflexivity.
  - apply new_eq in H; auto. destruct H as (c & a & b & _ & ->). split; reflexivity.
  - apply new_eq in H; auto. destruct H as (c & a & b & _ & ->). split; reflexivity.
  - inversion H; subst. apply addmb_eq in H1. destruct H1 as (c & cc & _ & _ & ->). stcbn. ifs; split; reflexivity.
  - apply whowas_eq in H. destruct H as (s1 & Wr & E). transitivity s1; [apply fchan_wr; auto|]. destruct E as [-> | (sl & e & ->)]; split; reflexivity.
  - apply free_eq in H. destruct H as (h & c & _ & _ & ->). stcbn. ifs; split; reflexivity.
  - inversion H; subst. destruct (wf_fresh _ W) as [F1 F2]. apply New_Connection_ok in H1; auto. destruct H1 as [(msg & -> & _)|(c & a & b & m & x & _ & _ & _ & _ & Wr)]; [split; reflexivity|].
    apply fchan_wr in Wr. destruct Wr. split; auto.
  - inversion H; subst. destruct (wf_fresh _ W) as [F1 F2]. apply New_Server_ok in H1; auto. destruct H1 as [-> |(sv & c & a & b & m & _ & _ & _ & ->)]; split; reflexivity.
Qed.
Lemma frame_mb : forall l s s', tmb l = false -> wf s -> pstep l s s' -> l <> L_newlocal -> fmb s s'.
Proof.
  intros l s s' T W H N. destruct l; try discriminate T; try congruence;
    try (inversion H; subst; reflexivity); try (inversion H; subst; unfold fmb, fodd, set_chan, if_odd; ifs; reflexivity).
  - apply type_eq in H. destruct H as (h & c & t & tok & a & b & _ & _ & _ & ->). unfold fmb. stcbn. ifs; reflexivity.
  - apply type0_type, type_eq in H. destruct H as (h & c & t & tok & a & b & _ & _ & _ & ->). unfold fmb. stcbn. ifs; reflexivity.
  - apply new_eq in H; auto. destruct H as (c & a & b & _ & ->). reflexivity.
  - apply new_eq in H; auto. destruct H as (c & a & b & _ & ->). reflexivity.
  - apply create_any_eq in H. destruct H as (n & _ & ->). unfold fmb. stcbn. ifs; reflexivity.
  - apply whowas_eq in H. destruct H as (s1 & Wr & E). transitivity s1; [apply fmb_wr; auto|]. destruct E as [-> | (sl & e & ->)]; reflexivity.
  - apply free_eq in H. destruct H as (h & c & _ & _ & ->). unfold fmb. stcbn. ifs; reflexivity.
  - inversion H; subst. destruct (wf_fresh _ W) as [F1 F2]. apply New_Connection_ok in H1; auto. destruct H1 as [(msg & -> & _)|(c & a & b & m & x & _ & _ & _ & _ & Wr)]; [reflexivity|].
    apply fmb_wr in Wr. exact Wr.
  - inversion H; subst. destruct (wf_fresh _ W) as [F1 F2]. apply New_Server_ok in H1; auto. destruct H1 as [-> |(sv & c & a & b & m & _ & _ & _ & ->)]; reflexivity.
Qed.
Lemma frame_odd : forall l s s', todd l = false -> wf s -> pstep l s s' -> l <> L_newlocal -> fodd s s'.
Proof.
  intros l s s' T W H N. destruct l; try discriminate T; try congruence;
    try (inversion H; subst; reflexivity); try (inversion H; subst; unfold fmb, fodd, set_chan, if_odd; ifs; reflexivity).
  - apply whowas_eq in H. destruct H as (s1 & Wr & E). transitivity s1; [apply fodd_wr; auto|]. destruct E as [-> | (sl & e & ->)]; reflexivity.
  - inversion H; subst. destruct (wf_fresh _ W) as [F1 F2]. apply New_Connection_ok in H1; auto. destruct H1 as [(msg & -> & _)|(c & a & b & m & x & _ & _ & _ & _ & Wr)]; [reflexivity|].
    apply fodd_wr in Wr. exact Wr.
  - inversion H; subst. destruct (wf_fresh _ W) as [F1 F2]. apply New_Server_ok in H1; auto. destruct H1 as [-> |(sv & c & a & b & m & _ & _ & _ & ->)]; reflexivity.
Qed.

(** ---- the connection table ---- *)
(** all connections in the table are open and not being closed (between commands), and they are counted *)
Definition copen (s : state) : Prop :=
  (forall i c, assoc i (s_conns s) = Some c -> co_open c = true /\ co_closing c = false) /\ s_numconn s = Z.of_nat (List.length (s_conns s)).
Definition wf2 (s : state) : Prop := wf s /\ copen s.
Lemma copen_fconn : forall s s', fconn s s' -> copen s -> copen s'.
Proof.
  intros s s' [K C N] [O L]. split.
  - intros i c Hc. specialize (C i). rewrite Hc in C. destruct (assoc i (s_conns s)) as [c0|] eqn:E; [|destruct C]. destruct C as (C1 & C2 & _). rewrite C1, C2. eauto.
  - rewrite N, L. apply (f_equal (@List.length _)) in K. rewrite !map_length in K. rewrite K. reflexivity.
Qed.
#[export] Instance wf2_wr : WrSub (pres wf2).
Proof. intros s s' H [W O]. split; [exact (wf_wr s s' H W)|]. eapply copen_fconn; eauto. apply fconn_wr. apply rt_step. auto. Qed.
Lemma wf2_opened : forall i cn h c a b m acc sv s, h = s_next s -> assoc i (s_conns s) = None -> co_open cn = true -> co_closing cn = false -> pres wf2 s (opened i cn h c a b m acc sv s).
Proof.
  intros i cn h c a b m acc sv s E N O1 O2 [W [O L]]. split; [apply wf_opened; auto|]. split.
  - intros j d Hd. cbn in Hd. destruct (Nat.eqb_spec j i); [inversion Hd; subst; auto|eauto].
  - cbn [opened s_numconn set_s_servers set_s_accepted set_s_numconnmax set_s_numconn s_conns set_s_conns List.length]. rewrite L. lia.
Qed.
Lemma adel_length : forall A i (l : list (nat * A)) a, NoDup (map fst l) -> assoc i l = Some a -> S (List.length (adel i l)) = List.length l.
Proof.
  unfold adel. induction l as [|[j x] l IH]; cbn; intros a N H; [discriminate|]. inversion N; subst. destruct (Nat.eqb_spec i j); cbn.
  - subst. f_equal. f_equal. change (filter (fun p => negb (Nat.eqb j (fst p))) l) with (nofilter (fun p : nat * A => Nat.eqb j (fst p)) l). apply nofilter_none.
    intros [k y] Hk. cbn. apply Nat.eqb_neq. intros ->. destruct H2. apply (in_map fst) in Hk. exact Hk.
  - f_equal. eapply IH; eauto.
Qed.
Lemma wf2_dropc : forall i sv c s, wf2 s -> assoc i (s_conns s) = Some c -> wf2 (dropc i sv s).
Proof.
  intros i sv c s [W [O L]] Hc. split.
  - assert (R : pres wf s (dropc i sv s)); auto. transitivity (set_s_numconn (s_numconn s - 1) (set_s_conns (adel i (s_conns s)) s)); [apply (ps (l := L_codel)); apply p_codel|].
    unfold dropc. apply wf_same. reflexivity.
  - split.
    + intros j d Hd. unfold dropc in Hd. cbn [s_conns set_s_servers set_s_numconn set_s_conns] in Hd. rewrite assoc_adel in Hd. destruct (Nat.eqb j i); [discriminate|eauto].
    + unfold dropc. cbn [s_conns set_s_servers set_s_numconn set_s_conns s_numconn]. rewrite L. assert (E := adel_length _ _ _ _ (wf_conns _ W) Hc). change (S (List.length (adel i (s_conns s))) = List.length (s_conns s)) in E. rewrite <- E, Nat2Z.inj_succ. unfold Z.succ. apply Z.add_simpl_r.
Qed.
Lemma fconn_gone3 : forall C H U s s', gone3 C H U s s' -> fconn s s'.
Proof. intros C H U s s' []. split; auto. intro i. eapply orel_imp; [apply co_same_key|]. auto. Qed.
Lemma wf2_close : PS L_close (pres wf2).
Proof.
  intros s s' H [W O]. split; [exact (ps (l := L_close) (X := pres wf) _ _ H W)|]. inversion H; subst. apply Conn_Close_ok in H0; auto. destruct H0 as (c & Hc & [[_ ->]|(_ & _ & _ & D & sv & G & _)]); auto.
  eapply copen_fconn; [eapply fconn_gone3; exact G|]. apply (wf2_dropc i sv c s); auto. split; auto.
Qed.
#[export] Existing Instance wf2_close.
Lemma wf2_destroy : PS L_destroy (pres wf2).
Proof.
  intros s s' H [W O]. split; [exact (ps (l := L_destroy) (X := pres wf) _ _ H W)|]. inversion H; subst. apply Client_Destroy_ok in H2; auto. destruct H2 as (D & G & _).
  eapply copen_fconn; [eapply fconn_gone3; exact G|]. auto.
Qed.
#[export] Existing Instance wf2_destroy.
Lemma wf2_ps : forall l, tconn l = false -> l <> L_newlocal -> PS l (pres wf) -> PS l (pres wf2).
Proof. intros l T N P s s' H [W O]. split; [exact (P s s' H W)|]. eapply copen_fconn; eauto. eapply frame_conn; eauto. Qed.
#[export] Hint Extern 1 (PS _ (pres wf2)) => (apply wf2_ps; [reflexivity|discriminate|exact _]) : typeclass_instances.
#[export] Instance wf2_register : PS L_register (pres wf2).
Proof. exact _. Qed.
#[export] Instance wf2_accept : PS L_accept (pres wf2).
Proof.
  intros s s' H W. pose proof W as [W1 W2]. inversion H; subst. destruct (wf_fresh _ W1) as [F1 F2]. apply New_Connection_ok in H1; auto.
  destruct H1 as [(msg & -> & _)|(c & a & b & m & x & _ & _ & _ & _ & Wr)].
  - split; [exact W1|exact W2].
  - revert W. change (pres wf2 s s'). etransitivity; [|apply wr_incl; [exact _|exact _|exact Wr]]. apply wf2_opened; auto.
Qed.
#[export] Instance wf2_newserver : PS L_newserver (pres wf2).
Proof.
  intros s s' H W. pose proof W as [W1 W2]. inversion H; subst. destruct (wf_fresh _ W1) as [F1 F2]. apply New_Server_ok in H1; auto.
  destruct H1 as [-> |(sv & c & a & b & m & _ & _ & _ & ->)]; auto. revert W. apply wf2_opened; auto.
Qed.
Theorem live_wf2 : forall s, live s -> wf2 s.
Proof.
  apply live_inv.
  - intros c sv t r s _ H. unfold boot in H. assert (R : rel (pres wf2) Channel_InitPredefined) by rel_auto. apply (R _ _ _ H). split; [apply wf_init|]. split; cbn; [discriminate|reflexivity].
  - intro e. apply step_rel.
  - apply action_rel.
Qed.
Theorem reachable_wf2 : forall s, reachable s -> wf2 s.
Proof. intros s R. apply live_wf2. constructor. auto. Qed.
