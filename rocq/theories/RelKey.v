(** Changes that leave alone what identifies clients: their ID, type, connection and introducer. *)
From Coq Require Import List Ascii String ZArith NArith Bool Lia.
From Coq Require Import Relations RelationClasses.
From Verif Require Import Bytes Strl Match Lists Hash ParseReq State Messages Monad Core Write Info Chan Mode Msg Login Oper Server Dispatch Conn Rel RelWrite RelInfo RelBase RelChan RelSrv RelInit.
Import ListNotations.
Local Open Scope m_scope.

Definition ckey (c c' : client) : Prop :=
  cl_id c' = cl_id c /\ cl_hash c' = cl_hash c /\ cl_type c' = cl_type c /\ cl_conn c' = cl_conn c /\ cl_introducer c' = cl_introducer c.
Lemma ckey_refl : Reflexive ckey.
Proof. intro c. repeat split. Qed.
Lemma ckey_trans : Transitive ckey.
Proof. unfold ckey. intros a b c H1 H2. repeat match goal with H : _ /\ _ |- _ => destruct H end. repeat split; congruence. Qed.
Lemma ckey_meta : forall c c', cmeta c c' -> ckey c c'.
Proof. intros c c' []. repeat split; auto. Qed.

Record ksame (s s' : state) : Prop := mk_ksame {
  k_conf : s_conf s' = s_conf s; k_clients : s_clients s' = s_clients s; k_next : s_next s' = s_next s;
  k_keys : map fst (s_heap s') = map fst (s_heap s);
  k_cli : forall h, orel ckey (assoc h (s_heap s)) (assoc h (s_heap s'));
  k_con : forall i, orel (fun c c' => co_client c' = co_client c) (assoc i (s_conns s)) (assoc i (s_conns s')) }.
#[export] Instance ksame_po : PreOrder ksame.
Proof.
  split.
  - intro s. split; auto; intro; [destruct (assoc h (s_heap s)) | destruct (assoc i (s_conns s))]; cbn; auto. apply ckey_refl.
  - intros a b c [] []. split; try congruence.
    + intro h. eapply orel_trans; eauto. apply ckey_trans.
    + intro i. specialize (k_con0 i). specialize (k_con1 i). unfold orel in *.
      destruct (assoc i (s_conns a)), (assoc i (s_conns b)), (assoc i (s_conns c)); auto; try contradiction. congruence.
Qed.
Lemma orel_ckey : forall o, orel ckey o o.
Proof. intros []; cbn; auto. apply ckey_refl. Qed.
Lemma orel_co : forall o, orel (fun c c' : conn => co_client c' = co_client c) o o.
Proof. intros []; cbn; auto. Qed.
Ltac ks_triv s := split; auto; intro; cbn; first [apply orel_ckey | apply orel_co].
Lemma ksame_set_con : forall i f s, (forall c, co_client (f c) = co_client c) -> ksame s (set_con i f s).
Proof.
  intros i f s H. unfold set_con. split; auto; intro k; cbn.
  - destruct (assoc k (s_heap s)); cbn; auto. apply ckey_refl.
  - rewrite assoc_aupd. destruct (Nat.eqb i k); destruct (assoc k (s_conns s)); cbn; auto.
Qed.
Lemma ksame_set_cli : forall h f s, (forall c, assoc h (s_heap s) = Some c -> ckey c (f c)) -> ksame s (set_cli h f s).
Proof.
  intros h f s H. unfold set_cli. split; auto; cbn [s_heap s_conns set_s_heap].
  - apply aupd_keys.
  - intro k. rewrite assoc_aupd. destruct (Nat.eqb h k) eqn:E; destruct (assoc k (s_heap s)) eqn:Ek; cbn; auto; try apply ckey_refl.
    apply Nat.eqb_eq in E. subst. auto.
  - intro k. destruct (assoc k (s_conns s)); cbn; auto.
Qed.
#[export] Instance ksame_wr : WrSub ksame.
Proof.
  intros s s' H. destruct H.
  - ks_triv s.
  - apply ksame_set_con. intro c. apply (cm_client _ _ (H c)).
  - split; auto; intro k; cbn; [destruct (assoc k (s_heap s)); cbn; auto; apply ckey_refl|].
    rewrite assoc_map. destruct (assoc k (s_conns s)); cbn; auto.
  - apply ksame_set_con. auto.
  - apply ksame_set_cli. intros. repeat split.
Qed.
#[export] Instance ksame_meta : PS L_meta ksame.
Proof. intros s s' H. inversion H; subst. apply ksame_set_cli. intros. apply ckey_meta. auto. Qed.
#[export] Instance ksame_umode : PS L_umode ksame.
Proof. intros s s' H. inversion H; subst; apply ksame_set_cli; intros; repeat split. Qed.
#[export] Instance ksame_oper : PS L_oper ksame.
Proof. intros s s' H. inversion H; subst; apply ksame_set_cli; intros; repeat split. Qed.
#[export] Instance ksame_conn : PS L_conn ksame.
Proof. intros s s' H. inversion H; subst; apply ksame_set_con; intros c. apply (cc_client _ _ (H0 c)). Qed.
#[export] Instance ksame_read : PS L_read ksame.
Proof. intros s s' H. inversion H; subst; apply ksame_set_con; intros c. apply (cr_client _ _ (H0 c)). Qed.
#[export] Instance ksame_class : PS L_class ksame.
Proof. intros s s' H. inversion H; subst; ks_triv s. Qed.
#[export] Instance ksame_sv : PS L_sv ksame.
Proof. intros s s' H. inversion H; subst; ks_triv s. Qed.
#[export] Instance ksame_sig : PS L_sig ksame.
Proof. intros s s' H. inversion H; subst; ks_triv s. Qed.
#[export] Instance ksame_wc : PS L_wc ksame.
Proof. intros s s' H. inversion H; subst; ks_triv s. Qed.
#[export] Instance ksame_time : PS L_time ksame.
Proof. intros s s' H. inversion H; subst; ks_triv s. Qed.
#[export] Instance ksame_lists : PS L_lists ksame.
Proof. intros s s' H. inversion H; subst; ks_triv s. Qed.
#[export] Instance ksame_whowas : PS L_whowas ksame.
Proof.
  intros s s' H. inversion H; subst. apply RegisterWhowas_ok in H0. destruct H0 as (s1 & W & E).
  transitivity s1; [apply wr_incl; auto; exact _|]. destruct E as [-> | (sl & e & _ & ->)]; [reflexivity|]. ks_triv s1.
Qed.

Lemma ks_cli : forall s s' h c, ksame s s' -> assoc h (s_heap s) = Some c -> exists c', assoc h (s_heap s') = Some c' /\ ckey c c'.
Proof. intros s s' h c [] H. specialize (k_cli0 h). rewrite H in k_cli0. destruct (assoc h (s_heap s')); [|contradiction]. eauto. Qed.
Lemma ks_attached : forall s s' h, ksame s s' -> attached h s -> attached h s'.
Proof.
  intros s s' h [] (i & c & H & Hc). specialize (k_con0 i). rewrite H in k_con0. destruct (assoc i (s_conns s')) as [c'|] eqn:E; [|contradiction].
  exists i, c'. split; auto. cbn in k_con0. congruence.
Qed.
Lemma ks_NextHop : forall n h s s' x, ksame s s' -> NextHop n h s = Ok x s -> NextHop n h s' = Ok x s'.
Proof.
  induction n; intros h s s' x W H; cbn [NextHop] in *; [minv H|].
  bd H as c s1 H1. rdcli H1.
  destruct (ks_cli _ _ _ _ W H1) as (y & Hy & (_ & _ & _ & _ & Hi)). unfold bind, cli. rewrite Hy, Hi.
  destruct (cl_introducer c); [destruct (heq h0 h || heq h0 This_Server)|].
  - apply ret_ok in H. destruct H as [-> _]. reflexivity.
  - eauto.
  - apply ret_ok in H. destruct H as [-> _]. reflexivity.
Qed.
Lemma ks_Client_NextHop : forall h s s' x, ksame s s' -> Client_NextHop h s = Ok x s -> Client_NextHop h s' = Ok x s'.
Proof.
  intros h s s' x W H. unfold Client_NextHop in *. bd H as n s1 H1. rdgets H1. unfold bind, gets.
  replace (List.length (s_heap s')) with (List.length (s_heap s)). { eapply ks_NextHop; eauto. }
  rewrite <- (map_length fst (s_heap s)), <- (map_length fst (s_heap s')). rewrite (k_keys _ _ W). reflexivity.
Qed.
Lemma ks_Client_Search : forall nick s s' o, ksame s s' -> Client_Search nick s = Ok o s -> Client_Search nick s' = Ok o s'.
Proof.
  intros nick s s' o W H. unfold Client_Search in *. bd H as l s1 H1. unfold Clients in H1. rdgets H1. unfold bind at 1, Clients, gets.
  rewrite (k_clients _ _ W). eapply mfind_run; [| |exact H].
  - intros a b t Ht. minv Ht. reflexivity.
  - intros a b Hb. bd Hb as c s1 H1. rdcli H1. destruct (ks_cli _ _ _ _ W H1) as (y & Hy & (E1 & E2 & _)). unfold bind, cli. rewrite Hy, E1, E2. apply ret_ok in Hb. destruct Hb as [-> _]. reflexivity.
Qed.

(** conditions such changes keep *)
Definition kstable (P : state -> Prop) : Prop := forall s s', ksame s s' -> P s -> P s'.
Lemma relp_bind_k : forall (X : state -> state -> Prop) {PO : PreOrder X} A B (P : state -> Prop) (m : M A) (k : A -> M B),
  kstable P -> rel ksame m -> rel X m -> (forall a, relp P X (k a)) -> relp P X (bind m k).
Proof.
  intros X PO A B P m k Hs Hm Hx Hk. apply (@relp_bind X PO A B P (fun _ => P)); auto.
  - intros s a s' _ H. eapply Hx; eauto.
  - intros s a s' Hp H. apply (Hs s s'); [apply (Hm s a s' H)|exact Hp].
Qed.
Lemma cfact_kstable : forall h (F : client -> Prop), (forall c c', ckey c c' -> F c -> F c') -> kstable (cfact h F).
Proof. intros h F HF s s' W (c & Hc & Hf). destruct (ks_cli _ _ _ _ W Hc) as (x & Hx & K). exists x. eauto. Qed.
Lemma kstable_and : forall P Q, kstable P -> kstable Q -> kstable (fun s => P s /\ Q s).
Proof. intros P Q HP HQ s s' W [H1 H2]. split; [eapply HP|eapply HQ]; eauto. Qed.
Lemma kstable_attached : forall h, kstable (attached h).
Proof. intros h s s' W H. eapply ks_attached; eauto. Qed.
Lemma kstable_True : kstable (fun _ => True).
Proof. intros s s' _ _. exact I. Qed.
Arguments relp_bind_k {X PO A B P m k}.

(** ---- IDs nobody uses ---- *)
Lemma search_id_plain : forall id, plain_id (strlcpy CLIENT_ID_LEN id) -> search_id id = strlcpy CLIENT_ID_LEN id.
Proof.
  intros id (_ & _ & H). unfold search_id. cbv zeta. destruct (strchr "!" (strlcpy CLIENT_ID_LEN id)) as [[p r]|] eqn:E; auto.
  exfalso. revert H p r E. generalize (strlcpy CLIENT_ID_LEN id). induction b as [|x b IH]; intros H p r E; cbn [strchr] in E; [discriminate|].
  unfold memb in *. cbn [existsb] in H. apply orb_false_iff in H. destruct H as [H1 H2]. rewrite Ascii.eqb_sym in H1. rewrite H1 in E.
  destruct (strchr "!" b) as [[p' r']|]; [eapply IH; eauto|discriminate].
Qed.
Lemma search_id_free : forall h id s, Client_Search id s = Ok None s -> id_free h (strlcpy CLIENT_ID_LEN id) s.
Proof.
  intros h id s H Hp x c Hx Hc _ Hh. apply Client_Search_ok in H. destruct H as [_ H]. destruct (H x Hx) as (c' & Hc' & Hn).
  rewrite Hc in Hc'. inversion Hc'; subst c'. rewrite search_id_plain in Hn by auto. unfold has_id in Hn.
  destruct (caseeq (cl_id c) (strlcpy CLIENT_ID_LEN id)) eqn:E; auto. rewrite Hh, (Hash_case _ _ E), N.eqb_refl in Hn. discriminate.
Qed.
Lemma CheckNick_ok : forall h nick s s', Client_CheckNick h nick s = Ok true s' ->
  s' = s /\ valid_nick (cf_maxnick (s_conf s)) nick = true /\ Client_Search nick s = Ok None s.
Proof.
  intros h nick s s' H. unfold Client_CheckNick in H. bd H as v s1 H1. unfold Client_IsValidNick, cf in H1. bd H1 as mx s2 H2. rdgets H2. rdret H1.
  bd H as mx s1 H1. unfold cf in H1. rdgets H1. destruct (valid_nick (cf_maxnick (s_conf s)) nick) eqn:V; cbn [negb] in H.
  2: { bd H as u s1 H1. apply ret_ok in H. destruct H; discriminate. }
  bd H as t s1 H1. apply Client_Type_ok in H1. destruct H1 as (-> & c & Hc & ->). bd H as blk s1 H1.
  assert (s1 = s). { destruct (_ && _); [unfold Conf_NickIsBlocked in H1; rdgets H1; auto|rdret H1; auto]. } subst.
  destruct blk. { bd H as u s1 H2. apply ret_ok in H. destruct H; discriminate. }
  bd H as o s1 H2. pose proof (Client_Search_ok _ _ _ _ H2) as [-> _]. destruct o.
  { bd H as u s1 H3. apply ret_ok in H. destruct H; discriminate. }
  apply ret_ok in H. destruct H as [_ ->]. auto.
Qed.
Lemma valid_nick_nonempty : forall mx nick, valid_nick mx nick = true -> nick <> [].
Proof. intros mx [|c n] H; [discriminate H|discriminate]. Qed.
Lemma valid_nick_short : forall mx nick, valid_nick mx nick = true -> List.length nick < mx.
Proof. intros mx nick H. unfold valid_nick in H. apply andb_true_iff in H. destruct H as [H _]. apply andb_true_iff in H. destruct H as [_ H]. apply Nat.ltb_lt. auto. Qed.
Lemma CheckID_ok : forall h id s s', Client_CheckID h id s = Ok true s' ->
  s' = s /\ List.length id <= CLIENT_ID_LEN /\ forall x c, In x (s_clients s) -> assoc x (s_heap s) = Some c -> caseeq (cl_id c) id = false.
Proof.
  intros h id s s' H. unfold Client_CheckID in H. bd H as c s1 H1. rdcli H1. bd H as i s1 H2. apply nonnull_ok in H2. destruct H2 as [_ ->].
  destruct (CLIENT_ID_LEN <? List.length id) eqn:L. { bd H as u s1 H2. apply ret_ok in H. destruct H; discriminate. }
  bd H as l s1 H2. unfold Clients in H2. rdgets H2. bd H as o s1 H2. apply mfind_ok in H2; [|intros a b t Ht; minv Ht; reflexivity].
  destruct H2 as [-> H2]. destruct o. { cbv zeta in H. bd H as u s1 H3. apply ret_ok in H. destruct H; discriminate. }
  apply ret_ok in H. destruct H as [_ ->]. split; auto. split. { apply Nat.ltb_ge in L. auto. }
  intros x cx Hx Hcx. specialize (H2 x Hx). bd H2 as c' s1 H3. rdcli H3. rewrite Hcx in H3. inversion H3; subst. apply ret_ok in H2. destruct H2; auto.
Qed.
Lemma CheckID_free : forall h x id s s', Client_CheckID h id s = Ok true s' -> id_free x (strlcpy CLIENT_ID_LEN id) s.
Proof.
  intros h x id s s' H. apply CheckID_ok in H. destruct H as (_ & L & H). intros (_ & P & _) y c Hy Hc _ _.
  assert (strlcpy CLIENT_ID_LEN id = id) as ->; [|eauto]. unfold strlcpy in *.
  destruct (CLIENT_ID_LEN <=? List.length id) eqn:E; auto. apply Nat.leb_le in E. rewrite firstn_length in P. unfold CLIENT_ID_LEN in *. lia.
Qed.
