(** From the invariants to the vocabulary of Spec.v. *)
From Coq Require Import List Ascii String ZArith NArith Bool Lia Arith.
From Verif Require Import Bytes Match Lists Hash State Messages Monad Core Write Info Chan Mode Msg Login Oper Server Dispatch Conn.
From Verif Require Import Rel RelWrite RelInfo RelBase RelChan RelSrv RelInit RelKey RelCmd RelComp WF RelGone Frame Tree RelReg Inv1 Inv2 Inv3 Inv4 Inv5 Spec.
Import ListNotations.

Lemma lookup_assoc : forall A k (l : list (nat * A)), lookup k l = assoc k l.
Proof. induction l as [|[k' a] l IH]; cbn; auto. Qed.
Lemma lower_tolower : forall c, lower_char c = tolower c.
Proof. intros [[] [] [] [] [] [] [] []]; vm_compute; reflexivity. Qed.
Lemma same_name_iff : forall a b, same_name a b <-> caseeq a b = true.
Proof.
  intros a b. rewrite caseeq_iff. unfold same_name, Bytes.lower. split; intro H; [rewrite <- !(map_ext _ _ lower_tolower)|rewrite !(map_ext _ _ lower_tolower)]; exact H.
Qed.
Lemma known_heap : forall s h c, known s h c -> In h (s_clients s) /\ assoc h (s_heap s) = Some c.
Proof. intros s h c [A B]. rewrite lookup_assoc in B. auto. Qed.

(** ---- nicknames ---- *)
Definition all_bytes (f : ascii -> bool) : bool := forallb (fun n => f (ascii_of_nat n)) (seq 0 256).
Lemma all_bytes_ok : forall f, all_bytes f = true -> forall c, f c = true.
Proof.
  intros f H c. unfold all_bytes in H. rewrite forallb_forall in H. rewrite <- (ascii_nat_embedding c). apply H. apply in_seq. pose proof (nat_ascii_bounded c). lia.
Qed.
Lemma nickchar_In : forall c, nickchar_ok c = true -> In c (letters ++ specials ++ digits ++ B "-;").
Proof.
  intros c H. apply memb_In. pose proof (all_bytes_ok (fun c => implb (nickchar_ok c) (memb c (letters ++ specials ++ digits ++ B "-;"))) eq_refl c) as K. cbv beta in K.
  rewrite H in K. exact K.
Qed.
Lemma nickfirst_In : forall c, nickchar_ok c = true -> strchr0 c goodchars = false -> In c (letters ++ specials).
Proof.
  intros c H G. apply memb_In. pose proof (all_bytes_ok (fun c => implb (nickchar_ok c && negb (strchr0 c goodchars)) (memb c (letters ++ specials))) eq_refl c) as K. cbv beta in K.
  rewrite H, G in K. exact K.
Qed.
Lemma valid_nick_legal : forall mx n, valid_nick mx n = true <-> legal_nick mx n.
Proof.
  intros mx n. unfold valid_nick, legal_nick. rewrite !andb_true_iff, negb_true_iff, Nat.ltb_lt, forallb_forall. split.
  - intros [[A A2] C]. split; [|split; [auto|split]].
    + intros ->. vm_compute in A. discriminate.
    + intros c r ->. apply nickfirst_In; [apply C; left; auto|exact A].
    + intros c Hc. apply nickchar_In. auto.
  - intros (A & A2 & C & D). split; [split; [|auto]|].
    + destruct n as [|c r]; [congruence|]. cbn [hd0]. specialize (C c r eq_refl). apply memb_In in C.
      pose proof (all_bytes_ok (fun c => implb (memb c (letters ++ specials)) (negb (strchr0 c goodchars))) eq_refl c) as K. cbv beta in K. rewrite C in K. cbn [implb] in K. apply negb_true_iff in K. exact K.
    + intros c Hc. specialize (D c Hc). apply memb_In in D.
      pose proof (all_bytes_ok (fun c => implb (memb c (letters ++ specials ++ digits ++ B "-;")) (nickchar_ok c)) eq_refl c) as K. cbv beta in K. rewrite D in K. exact K.
Qed.
Theorem local_nick_ok : forall s h c, reachable s -> undisturbed s -> known s h c -> is_local c -> cl_type c = T_USER -> legal_nick (cf_maxnick (s_conf s)) (cl_id c).
Proof.
  intros s h c R U K [i L] T. apply known_heap in K. destruct K as [_ K]. destruct (reachable_inick _ R U _ _ K) as [A|[A|[[_ A]|A]]]; try congruence; try (rewrite T in A; discriminate).
  apply valid_nick_legal. auto.
Qed.
(** the same before registration, as soon as a nickname has been accepted *)
Theorem unregistered_nick_ok : forall s h c, reachable s -> undisturbed s -> known s h c -> is_local c ->
  In (cl_type c) [T_UNKNOWN; T_GOTPASS; T_GOTNICK; T_GOTUSER; T_WAITAUTHPING; T_WAITCAPEND] -> cl_id c = [] \/ legal_nick (cf_maxnick (s_conf s)) (cl_id c).
Proof.
  intros s h c R U K [i L] T. apply known_heap in K. destruct K as [_ K]. destruct (reachable_inick _ R U _ _ K) as [A|[A|[[A _]|A]]]; auto; try congruence.
  - cbn in T. repeat (destruct T as [T|T]; [rewrite <- T in A; discriminate|]). contradiction.
  - right. apply valid_nick_legal. auto.
Qed.

(** ---- channel names ---- *)
Lemma valid_chan_legal : forall n, ~ In NUL n -> (valid_chan n = true <-> n = [] \/ legal_chan n).
Proof.
  intros n NN. unfold valid_chan, legal_chan. rewrite !andb_true_iff, Nat.ltb_lt, forallb_forall. unfold CHANNEL_NAME_LEN. split.
  - intros [[A B] C]. destruct n as [|c r]; auto. right. split; [|split; auto].
    + intros c' r' E. injection E as -> ->. cbn [hd0] in A. unfold strchr0 in A. apply orb_true_iff in A. destruct A as [A|A].
      * apply Ascii.eqb_eq in A. subst. exfalso. apply NN. left. reflexivity.
      * apply memb_In. auto.
    + intros c' Hc. specialize (C _ Hc). apply negb_true_iff in C. intro X. apply memb_In in X. pose proof (eq_trans (eq_sym C) X). discriminate.
  - intros [-> | (A & B & C)]; [vm_compute; repeat split; auto; try lia; contradiction|]. destruct n as [|c r]; [vm_compute; repeat split; auto; try lia; contradiction|]. split; [split; auto|].
    + cbn [hd0]. unfold strchr0. apply orb_true_iff. right. apply memb_In. eauto.
    + intros c' Hc. apply negb_true_iff. destruct (memb c' [" "; ","; ":"; "007"]%char) eqn:E; auto. apply memb_In in E. destruct (C _ Hc E).
Qed.
Theorem chan_name_ok : forall s ch c, reachable s -> exists_chan s ch c -> ~ In (O_Chan ch) (s_odd s) -> ~ In NUL (ch_name c) -> ch_name c = [] \/ legal_chan (ch_name c).
Proof.
  intros s ch c R H O N. unfold exists_chan in H. rewrite lookup_assoc in H. destruct (ic_good _ (reachable_ichan _ R) _ _ H). apply valid_chan_legal; auto. destruct kg_valid; [auto|contradiction].
Qed.

(** ---- uniqueness ---- *)
Theorem chan_unique : forall s ch1 c1 ch2 c2, reachable s -> exists_chan s ch1 c1 -> exists_chan s ch2 c2 -> same_name (ch_name c1) (ch_name c2) ->
  ~ In (O_Chan ch1) (s_odd s) -> ~ In (O_Chan ch2) (s_odd s) -> ch1 = ch2.
Proof.
  intros s ch1 c1 ch2 c2 R H1 H2 E O1 O2. unfold exists_chan in *. rewrite lookup_assoc in *. apply same_name_iff in E.
  destruct (ic_uniq _ (reachable_ichan _ R) _ _ _ _ H1 H2 E) as [|[|]]; auto; contradiction.
Qed.
Theorem client_unique : forall s x c y d, reachable s -> known s x c -> known s y d -> same_name (cl_id c) (cl_id d) ->
  cl_id c <> [] -> List.length (cl_id c) < 63 -> ~ In "!"%char (cl_id c) -> cl_type c <> T_SERVICE -> cl_type d <> T_SERVICE -> x = y.
Proof.
  intros s x c y d R [L1 H1] [L2 H2] E N1 N2 N3 T1 T2. rewrite lookup_assoc in *. apply same_name_iff in E. destruct (Nat.eq_dec x y); auto.
  destruct (reachable_iuniq _ R _ _ _ _ L1 L2 H1 H2 n) as [|]; auto; try contradiction. split; auto. split; auto.
  destruct (memb "!" (cl_id c)) eqn:M; auto. apply memb_In in M. contradiction.
Qed.
(** local users have such names *)
Lemma legal_nick_plain : forall mx n, mx <= CLIENT_NICK_LEN -> legal_nick mx n -> n <> [] /\ List.length n < 63 /\ ~ In "!"%char n.
Proof.
  intros mx n M (A & B & C & D). split; auto. split. { unfold CLIENT_NICK_LEN in M. lia. }
  intro H. apply D in H. apply memb_In in H. vm_compute in H. discriminate.
Qed.
Theorem local_unique : forall s x c y d, reachable s -> undisturbed s -> known s x c -> is_local c -> cl_type c = T_USER -> known s y d -> cl_type d <> T_SERVICE ->
  same_name (cl_id c) (cl_id d) -> x = y.
Proof.
  intros s x c y d R U K L T K2 T2 E. pose proof (local_nick_ok _ _ _ R U K L T) as V. destruct (reachable_conf _ R) as [[_ M] _]. destruct (legal_nick_plain _ _ M V) as (A & B & C).
  eapply client_unique; eauto. congruence.
Qed.

(** ---- memberships ---- *)
Theorem membership_ok : forall s m, reachable s -> In m (s_members s) ->
  (exists c, exists_chan s (mb_chan m) c) /\
  (In (O_Member (mb_chan m) (mb_client m)) (s_odd s) \/ exists c, lookup (mb_client m) (s_heap s) = Some c /\ (cl_type c = T_USER \/ cl_type c = T_SERVICE)).
Proof.
  intros s m R H. pose proof (reachable_wf _ R) as W. split.
  - assert (I : In (snd (mpair m)) (sh_chans (shape_of s))) by (apply (wf_mbchan _ W); cbn; apply in_map; auto). cbn in I.
    unfold exists_chan. rewrite lookup_assoc. destruct (assoc (mb_chan m) (s_chans s)) eqn:E; eauto. apply assoc_nokey in E. contradiction.
  - destruct (reachable_imb _ R _ H) as [U|]; auto. right. unfold uish in U. rewrite lookup_assoc. destruct (assoc (mb_client m) (s_heap s)) as [c|]; [|discriminate]. exists c. split; auto.
    destruct (cl_type c); try discriminate; auto.
Qed.
Theorem membership_known : forall s m, reachable s -> undisturbed s -> In m (s_members s) -> ~ In (O_Member (mb_chan m) (mb_client m)) (s_odd s) ->
  exists c, known s (mb_client m) c /\ (cl_type c = T_USER \/ cl_type c = T_SERVICE).
Proof.
  intros s m R U H O. destruct (membership_ok _ _ R H) as [_ [|(c & A & B)]]; [contradiction|]. exists c. split; auto. split; auto. rewrite lookup_assoc in A. eapply tr_listed; eauto. apply (reachable_itree _ R U).
Qed.
Theorem membership_once : forall s i j m m', reachable s -> nth_error (s_members s) i = Some m -> nth_error (s_members s) j = Some m' ->
  mb_client m = mb_client m' -> mb_chan m = mb_chan m' -> i = j.
Proof.
  intros s i j m m' R Hi Hj E1 E2. pose proof (wf_members _ (reachable_wf _ R)) as N. cbn in N. eapply (proj1 (NoDup_nth_error _)); [exact N| |].
  - rewrite map_length. apply nth_error_Some. congruence.
  - rewrite !nth_error_map, Hi, Hj. cbn. unfold mpair. congruence.
Qed.
Theorem empty_chan_ok : forall s ch c, reachable s -> exists_chan s ch c -> ~ In (O_Empty ch) (s_odd s) -> ~ In "P"%char (ch_modes c) -> exists h, is_on s h ch.
Proof.
  intros s ch c R H O P. unfold exists_chan in H. rewrite lookup_assoc in H. destruct (reachable_iempty _ R _ _ H) as [K|[(m & A & B)|K]]; try contradiction.
  - apply memb_In in K. contradiction.
  - exists (mb_client m), m. auto.
Qed.

(** ---- modes ---- *)
Theorem modes_ok : forall s, reachable s ->
  (forall h c, lookup h (s_heap s) = Some c -> List.length (cl_modes c) <= 20 /\ (is_local c -> NoDup (cl_modes c))) /\
  (forall ch c, exists_chan s ch c -> List.length (ch_modes c) <= 20 /\ (~ In (O_Modes ch) (s_odd s) -> NoDup (ch_modes c))) /\
  (forall m, In m (s_members s) -> List.length (mb_modes m) <= 20 /\ NoDup (mb_modes m)).
Proof.
  intros s R. split; [|split].
  - intros h c H. rewrite lookup_assoc in H. destruct (reachable_icli _ R _ _ H). unfold CLIENT_MODE_LEN in *. split; [lia|]. intros [i E]. apply cg_set. congruence.
  - intros ch c H. unfold exists_chan in H. rewrite lookup_assoc in H. destruct (ic_good _ (reachable_ichan _ R) _ _ H). unfold CHANNEL_MODE_LEN in *. split; [lia|]. intro. destruct kg_set; auto. contradiction.
  - intros m H. destruct (ic_mb _ (reachable_ichan _ R) _ H). unfold CLIENT_MODE_LEN in *. split; auto. lia.
Qed.

(** ---- tokens ---- *)
Theorem tokens_ok : forall s x c y d, reachable s -> known s x c -> known s y d -> cl_type c = T_SERVER -> cl_type d = T_SERVER -> cl_mytoken c = cl_mytoken d -> x = y.
Proof.
  intros s x c y d R [L1 H1] [L2 H2] T1 T2 E. rewrite lookup_assoc in *. pose proof (reachable_itok _ R) as I. destruct (Nat.eq_dec x y); auto. exfalso.
  pose proof (tk_uniq _ I _ _ _ _ L1 L2 H1 H2 n E) as A. exact (tk_server _ I _ _ H1 T1 A).
Qed.
Theorem tokens_range : forall s x c, reachable s -> lookup x (s_heap s) = Some c -> cl_type c = T_SERVER -> (cl_mytoken c = 1%Z /\ x = This_Server) \/ (2 <= cl_mytoken c)%Z.
Proof.
  intros s x c R H T. rewrite lookup_assoc in H. pose proof (reachable_itok _ R) as I. destruct (tk_range _ I _ _ H) as [A|[A|[A B]]]; auto. destruct (tk_server _ I _ _ H T A).
Qed.
