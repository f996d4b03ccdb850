(** Invariants of all reachable states, part 7: names of clients are unique, tokens of servers are
    unique; limits on the number of connections. *)
From Coq Require Import List Ascii String ZArith NArith Bool Lia FinFun.
From Coq Require Import Relations RelationClasses.
From Verif Require Import Bytes Strl Match Lists Hash ParseReq State Messages Monad Core Write Info Chan Mode Msg Login Oper Server Dispatch Conn Rel RelWrite RelInfo RelBase RelChan RelSrv RelInit RelKey RelCmd RelComp WF RelGone Frame Tree RelReg Inv1 Inv2 Inv3 Inv4.
Import ListNotations.
Local Open Scope m_scope.

(** ---- names ---- *)
Record wi (s : state) : Prop := mk_wi { wi_wf : wf s; wi_cli : icli s }.
#[export] Instance wi_wr : WrSub (pres wi).
Proof. intros s s' H [W C]. destruct (icli_WS s s' H W). split; auto. Qed.
Lemma wi_ps : forall l, PS l (also wf icli) -> PS l (pres wi).
Proof. intros l P s s' H [W C]. destruct (P s s' H W). split; auto. Qed.
#[export] Hint Extern 5 (PS _ (pres wi)) => (apply wi_ps; exact _) : typeclass_instances.
Theorem live_wi : forall s, live s -> wi s.
Proof. intros s R. split; [apply live_wf|apply live_icli]; auto. Qed.

Definition iuniq (s : state) : Prop := forall x c y d, In x (s_clients s) -> In y (s_clients s) -> assoc x (s_heap s) = Some c -> assoc y (s_heap s) = Some d ->
  x <> y -> plain_id (cl_id c) -> caseeq (cl_id c) (cl_id d) = true -> cl_type c = T_SERVICE \/ cl_type d = T_SERVICE.
Definition nkeep (c c' : client) : Prop := cl_id c' = cl_id c /\ (cl_type c = T_SERVICE -> cl_type c' = T_SERVICE).
Lemma plain_case : forall a b, caseeq a b = true -> plain_id a -> plain_id b.
Proof.
  intros a b E (A & B & C). assert (L := caseeq_len _ _ E). split; [|split].
  - intros ->. destruct a; [auto|discriminate].
  - lia.
  - apply caseeq_iff in E. clear A B L. revert b E. induction a as [|x a IH]; intros [|y b] E; try discriminate; auto. unfold memb in *. cbn [existsb] in *. apply orb_false_iff in C. destruct C as [C1 C2]. injection E as E1 E2.
    apply orb_false_iff. split; [|eauto]. pose proof (case_ok (fun z => Ascii.eqb "!" z) eq_refl _ _ E1) as E3. cbv beta in E3. congruence.
Qed.
(** one client [h] may have got another name, which is free, or only differs in the case of letters *)
Lemma iuniq_step : forall h s s', wf s -> icli s -> (forall x, In x (s_clients s') -> x = h \/ In x (s_clients s)) ->
  (forall x c', x <> h -> assoc x (s_heap s') = Some c' -> exists c, assoc x (s_heap s) = Some c /\ nkeep c c') ->
  (forall c', In h (s_clients s') -> assoc h (s_heap s') = Some c' -> (exists c, In h (s_clients s) /\ assoc h (s_heap s) = Some c /\ caseeq (cl_id c) (cl_id c') = true /\ (cl_type c = T_SERVICE -> cl_type c' = T_SERVICE)) \/
     cl_type c' = T_SERVICE \/ id_free h (cl_id c') s) -> iuniq s -> iuniq s'.
Proof.
  intros h s s' W C L K H U.
  assert (FR : forall x c c', x <> h -> In x (s_clients s') -> assoc x (s_heap s') = Some c -> In h (s_clients s') -> assoc h (s_heap s') = Some c' -> plain_id (cl_id c) -> caseeq (cl_id c) (cl_id c') = true -> cl_type c = T_SERVICE \/ cl_type c' = T_SERVICE).
  { intros x c c' Nx Lx Hx Lh Hh P E. destruct (K _ _ Nx Hx) as (c0 & Hx0 & Ei & Et). destruct (L _ Lx) as [|Lx0]; [congruence|]. destruct (H _ Lh Hh) as [(ch & Lh0 & Hh0 & Eh & Th)|[T|F]]; auto.
    - destruct (U x c0 h ch) as [T|T]; auto. { rewrite <- Ei. auto. } { rewrite <- Ei. eapply caseeq_trans; eauto. rewrite caseeq_sym. auto. }
    - exfalso. assert (P' : plain_id (cl_id c')) by (eapply plain_case; eauto). specialize (F P' x c0 Lx0 Hx0 Nx). rewrite Ei in E. rewrite F in E; [discriminate|].
      destruct (cg_hash _ (C _ _ Hx0)) as [Z|]; auto. destruct P as [P _]. rewrite <- Ei in Z. contradiction. }
  intros x c y d Lx Ly Hx Hy N P E. destruct (Nat.eq_dec x h) as [->|Nx]; [|destruct (Nat.eq_dec y h) as [->|Ny]].
  - assert (Ny : y <> h) by auto. destruct (FR y d c Ny Ly Hy Lx Hx); auto; [eapply plain_case; eauto|rewrite caseeq_sym; auto].
  - eauto.
  - destruct (K _ _ Nx Hx) as (c0 & Hx0 & Ei & Et). destruct (K _ _ Ny Hy) as (d0 & Hy0 & Di & Dt). destruct (L _ Lx) as [|Lx0]; [congruence|]. destruct (L _ Ly) as [|Ly0]; [congruence|].
    rewrite Ei, Di in *. destruct (U x c0 y d0); auto.
Qed.
Lemma iuniq_same : forall s s', (forall x, In x (s_clients s') -> In x (s_clients s)) ->
  (forall x c', assoc x (s_heap s') = Some c' -> exists c, assoc x (s_heap s) = Some c /\ nkeep c c') -> iuniq s -> iuniq s'.
Proof.
  intros s s' L K U x c y d Lx Ly Hx Hy N P E. destruct (K _ _ Hx) as (c0 & Hx0 & Ei & Et). destruct (K _ _ Hy) as (d0 & Hy0 & Di & Dt). rewrite Ei, Di in *. destruct (U x c0 y d0); auto.
Qed.
Lemma nkeep_fheap : forall s s', fheap s s' -> forall x c', assoc x (s_heap s') = Some c' -> exists c, assoc x (s_heap s) = Some c /\ nkeep c c'.
Proof. intros s s' F x c' H. pose proof (fh_cli _ _ F x) as A. rewrite H in A. destruct (assoc x (s_heap s)) as [c|]; [|destruct A]. exists c. split; auto. destruct A as [y ->]. split; auto. Qed.
Lemma nkeep_set : forall h f s, (forall c, assoc h (s_heap s) = Some c -> nkeep c (f c)) -> forall x c', assoc x (s_heap (set_cli h f s)) = Some c' -> exists c, assoc x (s_heap s) = Some c /\ nkeep c c'.
Proof.
  intros h f s H x c' Hx. unfold set_cli in Hx. cbn [s_heap set_s_heap] in Hx. rewrite assoc_aupd in Hx. destruct (Nat.eqb_spec h x).
  - subst. destruct (assoc x (s_heap s)) as [c|] eqn:E; [|discriminate]. inversion Hx; subst. eauto.
  - exists c'. split; auto. split; auto.
Qed.
Lemma iuniq_fheap : forall s s', fheap s s' -> iuniq s -> iuniq s'.
Proof. intros s s' F. apply iuniq_same; [rewrite (fh_clients _ _ F); auto|apply nkeep_fheap; auto]. Qed.
#[export] Instance iuniq_wr : WrSub (also wi iuniq).
Proof. apply also_wr; [exact _|]. intros s s' H _. apply iuniq_fheap, fheap_wr, rt_step. auto. Qed.
Lemma iuniq_frame : forall l, theap l = false -> PS l (pres wi) -> PS l (also wi iuniq).
Proof. intros l T P s s' H W. split; [exact (P s s' H W)|]. apply iuniq_fheap. eapply frame_heap; eauto. apply W. Qed.
#[export] Hint Extern 1 (PS _ (also wi iuniq)) => (apply iuniq_frame; [reflexivity|exact _]) : typeclass_instances.
Lemma iuniq_set : forall h f s, (forall c, assoc h (s_heap s) = Some c -> nkeep c (f c)) -> iuniq s -> iuniq (set_cli h f s).
Proof. intros h f s H. apply iuniq_same; auto. apply nkeep_set. auto. Qed.
#[export] Instance iuniq_meta : PS L_meta (also wi iuniq).
Proof. apply also_ps; [exact _|]. intros s s' H W. inversion H; subst. apply iuniq_set. intros x _. destruct (H1 x). split; auto. congruence. Qed.
#[export] Instance iuniq_intro : PS L_intro (also wi iuniq).
Proof. apply also_ps; [exact _|]. intros s s' H W. inversion H; subst. apply iuniq_set. split; auto. Qed.
#[export] Instance iuniq_umode : PS L_umode (also wi iuniq).
Proof. apply also_ps; [exact _|]. intros s s' H W. inversion H; subst; apply iuniq_set; split; auto. Qed.
#[export] Instance iuniq_oper : PS L_oper (also wi iuniq).
Proof. apply also_ps; [exact _|]. intros s s' H W. inversion H; subst; apply iuniq_set; split; auto. Qed.
#[export] Instance iuniq_type : PS L_type (also wi iuniq).
Proof.
  apply also_ps; [exact _|]. intros s s' H W U. apply type_eq in H. destruct H as (h & c & t & tok & a & b & Hc & Hk & _ & ->).
  apply (iuniq_set h (typed t tok)) in U.
  - revert U. apply iuniq_same; stcbn; ifs; auto; intros x c' Hx; exists c'; split; auto; split; auto.
  - intros c0 H0. assert (c0 = c) by congruence. subst. unfold typed. destruct (ctype_eqb t T_SERVER); split; auto; apply (tg_service _ _ _ _ Hk).
Qed.
Lemma set_id_id : forall u id c, cl_id (set_id u id c) = strlcpy CLIENT_ID_LEN id /\ cl_type (set_id u id c) = cl_type c.
Proof. intros [] id c; split; reflexivity. Qed.
Lemma iuniq_name : forall h u id c s, wf s -> icli s -> assoc h (s_heap s) = Some c -> id_free h (strlcpy CLIENT_ID_LEN id) s \/ caseeq (cl_id c) id = true -> iuniq s -> iuniq (set_cli h (set_id u id) s).
Proof.
  intros h u id c s W C Hc F. apply (iuniq_step h); auto.
  - intros x c' Nx Hx. unfold set_cli in Hx. cbn [s_heap set_s_heap] in Hx. rewrite assoc_aupd in Hx. destruct (Nat.eqb_spec h x); [congruence|]. exists c'. split; auto. split; auto.
  - intros c' Lh Hh. unfold set_cli in Hh. cbn [s_heap set_s_heap] in Hh. rewrite assoc_aupd, Nat.eqb_refl, Hc in Hh. inversion Hh; subst c'. destruct (set_id_id u id c) as [E1 E2]. rewrite E1, E2. destruct F as [F|F]; auto.
    left. exists c. split; auto. split; auto. split; auto. rewrite strlcpy_short; auto. rewrite <- (caseeq_len _ _ F). apply (cg_id _ (C _ _ Hc)).
Qed.
#[export] Instance iuniq_id : PS L_id (also wi iuniq).
Proof. apply also_ps; [exact _|]. intros s s' H [W C]. inversion H; subst. eapply iuniq_name; eauto. Qed.
#[export] Instance iuniq_idany : PS L_idany (also wi iuniq).
Proof. apply also_ps; [exact _|]. intros s s' H [W C]. inversion H; subst. eapply iuniq_name; eauto. Qed.
Lemma iuniq_add : forall s s' c, wf s -> icli s -> s_heap s' = (s_next s, c) :: s_heap s -> s_clients s' = s_next s :: s_clients s -> (cl_type c = T_SERVICE \/ id_free (s_next s) (cl_id c) s) -> iuniq s -> iuniq s'.
Proof.
  intros s s' c W C E1 E2 H. apply (iuniq_step (s_next s)); auto.
  - rewrite E2. intros x [<- |]; auto.
  - rewrite E1. intros x c' Nx Hx. cbn in Hx. destruct (Nat.eqb_spec x (s_next s)); [contradiction|]. exists c'. split; auto. split; auto.
  - rewrite E1. intros c' _ Hh. cbn in Hh. rewrite Nat.eqb_refl in Hh. inversion Hh; subst. auto.
Qed.
Lemma iuniq_born : forall l, l = L_new \/ l = L_service -> PS l (pres wi) -> PS l (also wi iuniq).
Proof.
  intros l Hl P. apply also_ps; [exact _|]. intros s s' H [W C]. apply new_eq in H; auto. destruct H as (c & a & b & Bn & ->). eapply iuniq_add; eauto; try reflexivity.
  destruct (ctype_eqb (cl_type c) T_SERVICE) eqn:E; [left; apply ctype_eqb_eq; auto|right]. apply (bn_free _ _ Bn). intro E'. rewrite E' in E. discriminate.
Qed.
#[export] Instance iuniq_new : PS L_new (also wi iuniq).
Proof. apply iuniq_born; auto. exact _. Qed.
#[export] Instance iuniq_service : PS L_service (also wi iuniq).
Proof. apply iuniq_born; auto. exact _. Qed.
Lemma id_free_nil : forall h s, id_free h [] s.
Proof. intros h s [P _]. contradiction. Qed.
#[export] Instance iuniq_accept : PS L_accept (also wi iuniq).
Proof.
  apply also_ps; [exact _|]. intros s s' H [W C] U. inversion H; subst. destruct (wf_fresh _ W) as [F1 F2]. apply New_Connection_ok in H1; auto.
  destruct H1 as [(msg & -> & _)|(c & a & b & m & x & F & _ & _ & _ & Wr)]; [exact U|].
  eapply iuniq_fheap; [apply fheap_wr; exact Wr|]. eapply iuniq_add; [exact W|exact C|reflexivity|reflexivity| |exact U]. right. cbn. rewrite (fr_id _ _ _ _ _ _ _ _ _ _ F). apply id_free_nil.
Qed.
#[export] Instance iuniq_newserver : PS L_newserver (also wi iuniq).
Proof.
  apply also_ps; [exact _|]. intros s s' H [W C] U. inversion H; subst. destruct (wf_fresh _ W) as [F1 F2]. apply New_Server_ok in H1; auto.
  destruct H1 as [-> |(sv & c & a & b & m & _ & _ & F & ->)]; auto. eapply iuniq_add; [exact W|exact C|reflexivity|reflexivity| |exact U]. right. cbn. rewrite (fr_id _ _ _ _ _ _ _ _ _ _ F). apply id_free_nil.
Qed.
#[export] Instance iuniq_unlink : PS L_unlink (also wi iuniq).
Proof.
  apply also_ps; [exact _|]. intros s s' H W. inversion H; subst. apply iuniq_same.
  - cbn [s_clients set_s_clients]. intros x Hx. unfold unlink in Hx. apply filter_In in Hx. tauto.
  - intros x c' Hx. exists c'. split; auto. split; auto.
Qed.
#[export] Instance iuniq_free : PS L_free (also wi iuniq).
Proof.
  apply also_ps; [exact _|]. intros s s' H W. apply free_eq in H. destruct H as (h & c & _ & _ & ->). apply iuniq_same.
  - stcbn. ifs; auto.
  - intros x c' Hx. cbn [s_heap set_s_heap] in Hx. rewrite assoc_adel in Hx. destruct (Nat.eqb x h); [discriminate|]. exists c'. split; [|split; auto]. revert Hx. stcbn. ifs; auto.
Qed.
Theorem live_iuniq : forall s, live s -> iuniq s.
Proof.
  apply (also_inv wi); [exact live_wi| | |].
  - intros c sv t r s CK H x cx y d Lx Ly Hx Hy N. exfalso. apply N. destruct (boot_me _ _ _ _ _ _ _ H Hx) as [-> _]. destruct (boot_me _ _ _ _ _ _ _ H Hy) as [-> _]. reflexivity.
  - intro e. apply step_rel.
  - apply action_rel.
Qed.
Theorem reachable_iuniq : forall s, reachable s -> iuniq s.
Proof. intros s R. apply live_iuniq. constructor. auto. Qed.

(** ---- tokens ---- *)
Lemma gen_token_free : forall n used t, (forall k, (k < n)%nat -> In (t + Z.of_nat k)%Z used) \/ ~ In (gen_token n used t) used.
Proof.
  induction n as [|n IH]; intros used t; cbn [gen_token]. { left. intros k Hk. lia. }
  destruct (existsb (Z.eqb t) used) eqn:E.
  - destruct (IH used (t + 1)%Z) as [H|H]; auto. left. intros [|k] Hk.
    + apply existsb_exists in E. destruct E as (z & Hz & E). apply Z.eqb_eq in E. subst. rewrite Z.add_0_r. auto.
    + replace (t + Z.of_nat (S k))%Z with (t + 1 + Z.of_nat k)%Z by lia. apply H. lia.
  - right. intro H. apply not_true_iff_false in E. apply E. apply existsb_exists. exists t. split; auto. apply Z.eqb_refl.
Qed.
Lemma gen_token_ge : forall n used t, (t <= gen_token n used t)%Z.
Proof. induction n as [|n IH]; intros used t; cbn [gen_token]; [lia|]. destruct (existsb _ _); [|lia]. specialize (IH used (t + 1)%Z). lia. Qed.
Lemma gen_token_new : forall used, ~ In (gen_token (S (List.length used)) used 2) used /\ (2 <= gen_token (S (List.length used)) used 2)%Z.
Proof.
  intro used. split; [|apply gen_token_ge]. destruct (gen_token_free (S (List.length used)) used 2) as [H|]; auto. exfalso.
  assert (I : incl (map (fun k => 2 + Z.of_nat k)%Z (seq 0 (S (List.length used)))) used). { intros z Hz. apply in_map_iff in Hz. destruct Hz as (k & <- & Hk). apply in_seq in Hk. apply H. lia. }
  apply NoDup_incl_length in I. { rewrite map_length, seq_length in I. lia. }
  apply Injective_map_NoDup; [intros a b E; lia|apply seq_NoDup].
Qed.
Record itok (s : state) : Prop := mk_itok {
  tk_uniq : forall x c y d, In x (s_clients s) -> In y (s_clients s) -> assoc x (s_heap s) = Some c -> assoc y (s_heap s) = Some d -> x <> y -> cl_mytoken c = cl_mytoken d -> cl_mytoken c = (-1)%Z;
  tk_range : forall x c, assoc x (s_heap s) = Some c -> cl_mytoken c = (-1)%Z \/ (2 <= cl_mytoken c)%Z \/ (x = This_Server /\ cl_mytoken c = 1%Z);
  tk_server : forall x c, assoc x (s_heap s) = Some c -> cl_type c = T_SERVER -> cl_mytoken c <> (-1)%Z }.
Lemma new_token_ok : forall tok s x c, new_token tok s -> In x (s_clients s) -> assoc x (s_heap s) = Some c -> cl_mytoken c <> tok.
Proof.
  intros tok s x c (used & -> & F) Hx Hc E. destruct (gen_token_new used) as [N _]. apply N. clear N. rewrite <- E.
  assert (K : forall l u, Forall2 (fun x z => exists c, assoc x (s_heap s) = Some c /\ cl_mytoken c = z) l u -> In x l -> In (cl_mytoken c) u).
  { clear F Hx E used. intros l u F. induction F as [|a z l u (c0 & A & B) F IH]; intros []; [|right; auto]. subst. left. congruence. }
  eapply K; eauto.
Qed.
Lemma new_token_ge : forall tok s, new_token tok s -> (2 <= tok)%Z.
Proof. intros tok s (used & -> & _). apply gen_token_new. Qed.
Definition tkeep (c c' : client) : Prop := cl_mytoken c' = cl_mytoken c /\ (cl_type c' = T_SERVER -> cl_type c = T_SERVER).
Lemma itok_same : forall s s', (forall x, In x (s_clients s') -> In x (s_clients s)) ->
  (forall x c', assoc x (s_heap s') = Some c' -> exists c, assoc x (s_heap s) = Some c /\ tkeep c c') -> itok s -> itok s'.
Proof.
  intros s s' L K [U R S]. split.
  - intros x c y d Lx Ly Hx Hy N E. destruct (K _ _ Hx) as (c0 & Hx0 & Ei & Et). destruct (K _ _ Hy) as (d0 & Hy0 & Di & Dt). rewrite Ei, Di in *. eauto.
  - intros x c Hx. destruct (K _ _ Hx) as (c0 & Hx0 & Ei & Et). rewrite Ei. eauto.
  - intros x c Hx T. destruct (K _ _ Hx) as (c0 & Hx0 & Ei & Et). rewrite Ei. eauto.
Qed.
(** [h] gets a new token *)
Lemma itok_step : forall h s s', (forall x, In x (s_clients s') -> x = h \/ In x (s_clients s)) ->
  (forall x c', x <> h -> assoc x (s_heap s') = Some c' -> exists c, assoc x (s_heap s) = Some c /\ tkeep c c') ->
  (forall c', assoc h (s_heap s') = Some c' -> new_token (cl_mytoken c') s \/ (cl_mytoken c' = (-1)%Z /\ cl_type c' <> T_SERVER)) -> itok s -> itok s'.
Proof.
  intros h s s' L K H [U R S].
  assert (FR : forall x c c', x <> h -> In x (s_clients s') -> assoc x (s_heap s') = Some c -> assoc h (s_heap s') = Some c' -> cl_mytoken c = cl_mytoken c' -> cl_mytoken c = (-1)%Z).
  { intros x c c' Nx Lx Hx Hh E. destruct (H _ Hh) as [T|[T _]]; [|congruence]. exfalso. destruct (K _ _ Nx Hx) as (c0 & Hx0 & Ei & Et). destruct (L _ Lx) as [|Lx0]; [congruence|].
    apply (new_token_ok _ _ _ _ T Lx0 Hx0). congruence. }
  split.
  - intros x c y d Lx Ly Hx Hy N E. destruct (Nat.eq_dec x h) as [->|Nx]; [|destruct (Nat.eq_dec y h) as [->|Ny]].
    + rewrite E. eapply (FR y d c); eauto.
    + eapply (FR x c d); eauto.
    + destruct (K _ _ Nx Hx) as (c0 & Hx0 & Ei & Et). destruct (K _ _ Ny Hy) as (d0 & Hy0 & Di & Dt). destruct (L _ Lx) as [|Lx0]; [congruence|]. destruct (L _ Ly) as [|Ly0]; [congruence|]. rewrite Ei, Di in *. eauto.
  - intros x c Hx. destruct (Nat.eq_dec x h) as [->|Nx].
    + destruct (H _ Hx) as [T|[T _]]; auto. apply new_token_ge in T. auto.
    + destruct (K _ _ Nx Hx) as (c0 & Hx0 & Ei & Et). rewrite Ei. eauto.
  - intros x c Hx T. destruct (Nat.eq_dec x h) as [->|Nx].
    + destruct (H _ Hx) as [T0|[_ T0]]; [|congruence]. apply new_token_ge in T0. lia.
    + destruct (K _ _ Nx Hx) as (c0 & Hx0 & Ei & Et). rewrite Ei. eauto.
Qed.
Lemma itok_fheap : forall s s', fheap s s' -> itok s -> itok s'.
Proof.
  intros s s' F. apply itok_same; [rewrite (fh_clients _ _ F); auto|]. intros x c' H. pose proof (fh_cli _ _ F x) as A. rewrite H in A. destruct (assoc x (s_heap s)) as [c|]; [|destruct A]. exists c. split; auto. destruct A as [y ->]. split; auto.
Qed.
#[export] Instance itok_wr : WrSub (also wf itok).
Proof. apply also_wr; [exact _|]. intros s s' H _. apply itok_fheap, fheap_wr, rt_step. auto. Qed.
Lemma itok_frame : forall l, theap l = false -> PS l (pres wf) -> PS l (also wf itok).
Proof. intros l T P s s' H W. split; [exact (P s s' H W)|]. apply itok_fheap. eapply frame_heap; eauto. Qed.
#[export] Hint Extern 1 (PS _ (also wf itok)) => (apply itok_frame; [reflexivity|exact _]) : typeclass_instances.
Lemma itok_set : forall h f s, (forall c, assoc h (s_heap s) = Some c -> tkeep c (f c)) -> itok s -> itok (set_cli h f s).
Proof.
  intros h f s H. apply itok_same; auto. intros x c' Hx. unfold set_cli in Hx. cbn [s_heap set_s_heap] in Hx. rewrite assoc_aupd in Hx. destruct (Nat.eqb_spec h x).
  - subst. destruct (assoc x (s_heap s)) as [c|] eqn:E; [|discriminate]. inversion Hx; subst. eauto.
  - exists c'. split; auto. split; auto.
Qed.
#[export] Instance itok_meta : PS L_meta (also wf itok).
Proof. apply also_ps; [exact _|]. intros s s' H W. inversion H; subst. apply itok_set. intros x _. destruct (H1 x). split; auto. congruence. Qed.
#[export] Instance itok_intro : PS L_intro (also wf itok).
Proof. apply also_ps; [exact _|]. intros s s' H W. inversion H; subst. apply itok_set. split; auto. Qed.
#[export] Instance itok_id : PS L_id (also wf itok).
Proof. apply also_ps; [exact _|]. intros s s' H W. inversion H; subst. apply itok_set. unfold set_id. ifs; split; auto. Qed.
#[export] Instance itok_idany : PS L_idany (also wf itok).
Proof. apply also_ps; [exact _|]. intros s s' H W. inversion H; subst. apply itok_set. unfold set_id. ifs; split; auto. Qed.
#[export] Instance itok_umode : PS L_umode (also wf itok).
Proof. apply also_ps; [exact _|]. intros s s' H W. inversion H; subst; apply itok_set; split; auto. Qed.
#[export] Instance itok_oper : PS L_oper (also wf itok).
Proof. apply also_ps; [exact _|]. intros s s' H W. inversion H; subst; apply itok_set; split; auto. Qed.
#[export] Instance itok_type : PS L_type (also wf itok).
Proof.
  apply also_ps; [exact _|]. intros s s' H W. apply type_eq in H. destruct H as (h & c & t & tok & a & b & Hc & Hk & Ht & ->). intro I.
  assert (I' : itok (set_cli h (typed t tok) s)).
  { unfold typed. destruct (ctype_eqb t T_SERVER) eqn:Et.
    - apply ctype_eqb_eq in Et. subst t. apply (itok_step h s); auto.
      + intros x c' Nx Hx. unfold set_cli in Hx. cbn [s_heap set_s_heap] in Hx. rewrite assoc_aupd in Hx. destruct (Nat.eqb_spec h x); [congruence|]. exists c'. split; auto. split; auto.
      + intros c' Hx. unfold set_cli in Hx. cbn [s_heap set_s_heap] in Hx. rewrite assoc_aupd, Nat.eqb_refl, Hc in Hx. inversion Hx; subst. left. cbn. auto.
    - apply itok_set; auto. intros x _. split; auto. cbn. intros ->. discriminate. }
  revert I'. apply itok_same; stcbn; ifs; auto; intros x c' Hx; exists c'; split; auto; split; auto.
Qed.
Lemma itok_add : forall s s' c, s_heap s' = (s_next s, c) :: s_heap s -> s_clients s' = s_next s :: s_clients s -> (if ctype_eqb (cl_type c) T_SERVER then new_token (cl_mytoken c) s else cl_mytoken c = (-1)%Z) -> itok s -> itok s'.
Proof.
  intros s s' c E1 E2 H. apply (itok_step (s_next s)); auto.
  - rewrite E2. intros x [<- |]; auto.
  - rewrite E1. intros x c' Nx Hx. cbn in Hx. destruct (Nat.eqb_spec x (s_next s)); [contradiction|]. exists c'. split; auto. split; auto.
  - rewrite E1. intros c' Hh. cbn in Hh. rewrite Nat.eqb_refl in Hh. inversion Hh; subst. destruct (ctype_eqb (cl_type c') T_SERVER) eqn:E; auto. right. split; auto. intro E'. rewrite E' in E. discriminate.
Qed.
#[export] Instance itok_new : PS L_new (also wf itok).
Proof. apply also_ps; [exact _|]. intros s s' H W. apply new_eq in H; auto. destruct H as (c & a & b & Bn & ->). apply (itok_add _ _ c); auto. apply Bn. Qed.
#[export] Instance itok_service : PS L_service (also wf itok).
Proof. apply also_ps; [exact _|]. intros s s' H W. apply new_eq in H; auto. destruct H as (c & a & b & Bn & ->). apply (itok_add _ _ c); auto. apply Bn. Qed.
#[export] Instance itok_accept : PS L_accept (also wf itok).
Proof.
  apply also_ps; [exact _|]. intros s s' H W U. inversion H; subst. destruct (wf_fresh _ W) as [F1 F2]. apply New_Connection_ok in H1; auto.
  destruct H1 as [(msg & -> & _)|(c & a & b & m & x & F & _ & _ & _ & Wr)]; [revert U; apply itok_same; auto; intros x c' Hx; exists c'; split; auto; split; auto|].
  eapply itok_fheap; [apply fheap_wr; exact Wr|]. eapply itok_add; [reflexivity|reflexivity| |exact U]. cbn [cl_type cl_mytoken set_cl_host]. pose proof (fr_mytoken _ _ _ _ _ _ _ _ _ _ F). rewrite (fr_type _ _ _ _ _ _ _ _ _ _ F). auto.
Qed.
#[export] Instance itok_newserver : PS L_newserver (also wf itok).
Proof.
  apply also_ps; [exact _|]. intros s s' H W U. inversion H; subst. destruct (wf_fresh _ W) as [F1 F2]. apply New_Server_ok in H1; auto.
  destruct H1 as [-> |(sv & c & a & b & m & _ & _ & F & ->)]; auto. eapply itok_add; [reflexivity|reflexivity| |exact U]. cbn [cl_type cl_mytoken set_cl_token set_cl_introducer]. pose proof (fr_mytoken _ _ _ _ _ _ _ _ _ _ F). rewrite (fr_type _ _ _ _ _ _ _ _ _ _ F). auto.
Qed.
#[export] Instance itok_unlink : PS L_unlink (also wf itok).
Proof.
  apply also_ps; [exact _|]. intros s s' H W. inversion H; subst. apply itok_same.
  - cbn [s_clients set_s_clients]. intros x Hx. unfold unlink in Hx. apply filter_In in Hx. tauto.
  - intros x c' Hx. exists c'. split; auto. split; auto.
Qed.
#[export] Instance itok_free : PS L_free (also wf itok).
Proof.
  apply also_ps; [exact _|]. intros s s' H W. apply free_eq in H. destruct H as (h & c & _ & _ & ->). apply itok_same.
  - stcbn. ifs; auto.
  - intros x c' Hx. cbn [s_heap set_s_heap] in Hx. rewrite assoc_adel in Hx. destruct (Nat.eqb x h); [discriminate|]. exists c'. split; [|split; auto]. revert Hx. stcbn. ifs; auto.
Qed.
Theorem live_itok : forall s, live s -> itok s.
Proof.
  apply (also_inv wf); [exact live_wf| | |].
  - intros c sv t r s CK H. split.
    + intros x cx y d Lx Ly Hx Hy N. exfalso. apply N. destruct (boot_me _ _ _ _ _ _ _ H Hx) as [-> _]. destruct (boot_me _ _ _ _ _ _ _ H Hy) as [-> _]. reflexivity.
    + intros x cx Hx. destruct (boot_me _ _ _ _ _ _ _ H Hx) as (-> & _ & _ & E & _). auto.
    + intros x cx Hx _. destruct (boot_me _ _ _ _ _ _ _ H Hx) as (-> & _ & _ & E & _). rewrite E. discriminate.
  - intro e. apply step_rel.
  - apply action_rel.
Qed.
Theorem reachable_itok : forall s, reachable s -> itok s.
Proof. intros s R. apply live_itok. constructor. auto. Qed.

(** ---- limits ---- *)
(** the number of connections from an address *)
Definition from_ip (ip : bytes) (s : state) : nat := List.length (filter (fun p => co_open (snd p) && beq (co_ip (snd p)) ip) (s_conns s)).
Definition fewer (s s' : state) : Prop := wf2 s -> wf2 s' /\ (s_numconn s' <= s_numconn s)%Z /\ forall ip, from_ip ip s' <= from_ip ip s.
#[export] Instance fewer_po : PreOrder fewer.
Proof.
  split; [intros s W; split; auto; split; [lia|auto]|]. intros a b c H1 H2 W. destruct (H1 W) as (W1 & A1 & B1). destruct (H2 W1) as (W2 & A2 & B2). split; auto. split; [lia|]. intro ip. specialize (B1 ip). specialize (B2 ip). lia.
Qed.
Lemma from_ip_eq : forall (l l' : list (nat * conn)) ip, map fst l' = map fst l -> NoDup (map fst l) -> (forall i, orel co_key (assoc i l) (assoc i l')) ->
  List.length (filter (fun p => co_open (snd p) && beq (co_ip (snd p)) ip) l') = List.length (filter (fun p => co_open (snd p) && beq (co_ip (snd p)) ip) l).
Proof.
  intros l. induction l as [|[i c] l IH]; intros [|[j d] l'] ip K N A; try discriminate; auto. cbn [map fst] in K, N. injection K as -> K. inversion N; subst.
  pose proof (A i) as A0. cbn in A0. rewrite Nat.eqb_refl in A0. destruct A0 as (E1 & _ & _ & E2). cbn [filter snd]. rewrite E1, E2.
  assert (R : List.length (filter (fun p => co_open (snd p) && beq (co_ip (snd p)) ip) l') = List.length (filter (fun p => co_open (snd p) && beq (co_ip (snd p)) ip) l)).
  { apply IH; auto. intro k. pose proof (A k) as A0. cbn in A0. destruct (Nat.eqb_spec k i); auto. subst.
    assert (X1 : assoc i l = None) by (apply assoc_nokey; auto). assert (X2 : assoc i l' = None) by (apply assoc_nokey; rewrite K; auto). rewrite X1, X2. cbn. auto. }
  destruct (co_open c && beq (co_ip c) ip); cbn; lia.
Qed.
Lemma fewer_fconn : forall s s', fconn s s' -> wf2 s -> (s_numconn s' <= s_numconn s)%Z /\ forall ip, from_ip ip s' <= from_ip ip s.
Proof.
  intros s s' [K C N] [W _]. split; [lia|]. intro ip. unfold from_ip. apply Nat.eq_le_incl. apply (from_ip_eq (s_conns s) (s_conns s') ip); auto. apply (wf_conns _ W).
Qed.
#[export] Instance fewer_wr : WrSub fewer.
Proof. intros s s' H W. split; [exact (wf2_wr s s' H W)|]. apply fewer_fconn; auto. apply fconn_wr, rt_step. auto. Qed.
Lemma fewer_ps : forall l, tconn l = false -> l <> L_newlocal -> PS l (pres wf2) -> PS l fewer.
Proof. intros l T N P s s' H W. split; [exact (P s s' H W)|]. apply fewer_fconn; auto. eapply frame_conn; eauto. apply W. Qed.
#[export] Hint Extern 1 (PS _ fewer) => (apply fewer_ps; [reflexivity|discriminate|exact _]) : typeclass_instances.
Lemma fewer_gone3 : forall C H U s s', gone3 C H U s s' -> wf2 s -> (s_numconn s' <= s_numconn s)%Z /\ forall ip, from_ip ip s' <= from_ip ip s.
Proof. intros C H U s s' G W. apply fewer_fconn; auto. eapply fconn_gone3; eauto. Qed.
#[export] Instance fewer_remove : PS L_remove fewer.
Proof.
  intros s s' H W. assert (P : PS L_remove (pres wf2)) by exact _. split; [exact (P s s' H W)|]. inversion H; subst. apply Remove_Client_ok in H0; [|apply W]. destruct H0 as [G _]. eapply fewer_gone3; eauto.
Qed.
#[export] Instance fewer_destroy : PS L_destroy fewer.
Proof.
  intros s s' H W. split; [exact (wf2_destroy s s' H W)|]. inversion H; subst. apply Client_Destroy_ok in H2; [|apply W]. destruct H2 as (D & G & _). eapply fewer_gone3; eauto.
Qed.
Lemma filter_filter_len : forall A (f g : A -> bool) l, List.length (filter f (filter g l)) <= List.length (filter f l).
Proof. induction l as [|x l IH]; cbn; auto. destruct (g x); cbn; destruct (f x); cbn; lia. Qed.
#[export] Instance fewer_close : PS L_close fewer.
Proof.
  intros s s' H W. split; [exact (wf2_close s s' H W)|]. inversion H; subst. apply Conn_Close_ok in H0; [|apply W]. destruct H0 as (cn & Hcn & [[_ ->]|(_ & _ & _ & D & sv & G & _ & HD)]); [split; [lia|auto]|].
  pose proof (wf2_dropc i sv cn s W Hcn) as W'. destruct (fewer_gone3 _ _ _ _ _ G W') as [A B]. split.
  - unfold dropc in A. cbn [s_numconn set_s_servers set_s_numconn] in A. lia.
  - intro ip. specialize (B ip). etransitivity; [exact B|]. unfold from_ip, dropc. cbn [s_conns set_s_servers set_s_numconn set_s_conns]. unfold adel. apply filter_filter_len.
Qed.
Lemma step_fewer : forall e s s', opens e = false -> wf2 s -> step e s = Ok tt s' -> (s_numconn s' <= s_numconn s)%Z /\ forall ip, from_ip ip s' <= from_ip ip s.
Proof. intros e s s' O W H. assert (R : rel fewer (step e)) by (apply step_rel_quiet; auto). apply (R _ _ _ H W). Qed.
