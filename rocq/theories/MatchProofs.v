From Coq Require Import List Ascii String Arith Bool Lia.
From Verif Require Import Bytes Match MatchSpec.
Import ListNotations.

Definition suffix (s t : bytes) : Prop := exists u, t = u ++ s.

Lemma suffix_refl : forall t, suffix t t.
Proof. intro t. exists []. reflexivity. Qed.
Lemma suffix_cons : forall x s t, suffix s t -> suffix s (x :: t).
Proof. intros x s t [u H]. exists (x :: u). simpl. congruence. Qed.
Lemma suffix_inv : forall s x t, suffix s (x :: t) -> s = x :: t \/ suffix s t.
Proof.
  intros s x t [[|y u] H]; simpl in H.
  - left. auto.
  - right. exists u. congruence.
Qed.
Lemma suffix_nil : forall s, suffix s [] -> s = [].
Proof. intros s [u H]. symmetry in H. apply app_eq_nil in H. tauto. Qed.
Lemma suffix_nil_any : forall t, suffix [] t.
Proof. intro t. exists t. rewrite app_nil_r. reflexivity. Qed.
Lemma suffix_tail : forall y s t, suffix (y :: s) t -> suffix s t.
Proof. intros y s t [u H]. exists (u ++ [y]). rewrite <- app_assoc. auto. Qed.
Lemma suffix_trans : forall a b c, suffix a b -> suffix b c -> suffix a c.
Proof. intros a b c [u H1] [v H2]. exists (v ++ u). subst. apply app_assoc. Qed.

Lemma glob_star_inv : forall p t, glob ("*"%char :: p) t <-> exists s, suffix s t /\ glob p s.
Proof.
  intros p t. split.
  - intro H. inversion H; subst; try congruence.
    exists t0. split; auto. exists u. reflexivity.
  - intros [s [[u E] H]]. subst. constructor. auto.
Qed.

Lemma glob_any_inv : forall p t, glob ("?"%char :: p) t <-> exists x t1, t = x :: t1 /\ glob p t1.
Proof.
  intros p t. split.
  - intro H. inversion H; subst; try congruence. eauto.
  - intros [x [t1 [E H]]]. subst. constructor. auto.
Qed.

Lemma glob_lit_inv : forall c p t, c <> "?"%char -> c <> "*"%char ->
  (glob (c :: p) t <-> exists t1, t = c :: t1 /\ glob p t1).
Proof.
  intros c p t H1 H2. split.
  - intro H. inversion H; subst; try congruence. eauto.
  - intros [t1 [E H]]. subst. constructor; auto.
Qed.

Lemma glob_nil_inv : forall t, glob [] t <-> t = [].
Proof. intro t. split; intro H; [inversion H; auto | subst; constructor]. Qed.

(** [spec_star p t]: some suffix of t matches p, i.e. what "*p" means. *)
Definition some_suffix (p t : bytes) : Prop := exists s, suffix s t /\ glob p s.

Lemma some_suffix_star : forall p t, some_suffix ("*"%char :: p) t <-> some_suffix p t.
Proof.
  intros p t. unfold some_suffix. split.
  - intros [s [H1 H2]]. apply glob_star_inv in H2. destruct H2 as [s2 [H3 H4]].
    exists s2. split; auto. eapply suffix_trans; eauto.
  - intros [s [H1 H2]]. exists s. split; auto.
    apply glob_star_inv. exists s. split; auto. apply suffix_refl.
Qed.

Lemma some_suffix_any : forall p x t, some_suffix ("?"%char :: p) (x :: t) <-> some_suffix p t.
Proof.
  intros p x t. unfold some_suffix. split.
  - intros [s [H1 H2]]. apply glob_any_inv in H2. destruct H2 as [y [t1 [E H2]]]. subst.
    exists t1. split; auto. apply suffix_inv in H1. destruct H1 as [H1|H1].
    + inversion H1. apply suffix_refl.
    + eapply suffix_tail; eauto.
  - intros [s [[u E] H2]]. subst.
    exists (match rev u with [] => x :: s | y :: _ => y :: s end).
    destruct (rev u) as [|y r] eqn:Eu.
    + assert (u = []) by (rewrite <- (rev_involutive u), Eu; reflexivity). subst. simpl.
      split; [apply suffix_refl | constructor; auto].
    + assert (u = rev r ++ [y]) by (rewrite <- (rev_involutive u), Eu; reflexivity). subst.
      split; [| constructor; auto]. exists (x :: rev r). rewrite <- app_assoc. reflexivity.
Qed.

(** The pattern that is left after skipping does not start with a wildcard. *)
Lemma skip_wild_lit : forall p t d p2 t2, skip_wild p t = Some (d :: p2, t2) ->
  d <> "?"%char /\ d <> "*"%char.
Proof.
  induction p as [|c p IH]; simpl; intros t d p2 t2 H; [discriminate|].
  destruct (Ascii.eqb c "?") eqn:E1.
  - destruct t; [discriminate|]. eauto.
  - destruct (Ascii.eqb c "*") eqn:E2; eauto.
    inversion H; subst. apply Ascii.eqb_neq in E1. apply Ascii.eqb_neq in E2. auto.
Qed.

Lemma skip_wild_suffix : forall p t p' t', skip_wild p t = Some (p', t') ->
  exists w, p = w ++ p' /\ Forall (fun c => c = "?"%char \/ c = "*"%char) w.
Proof.
  induction p as [|c p IH]; simpl; intros t p' t' H.
  - inversion H. exists []. auto.
  - destruct (Ascii.eqb c "?") eqn:E1.
    + destruct t; [discriminate|]. apply IH in H. destruct H as [w [H1 H2]].
      apply Ascii.eqb_eq in E1. exists (c :: w). simpl. split; [congruence|]. constructor; auto.
    + destruct (Ascii.eqb c "*") eqn:E2.
      * apply IH in H. destruct H as [w [H1 H2]].
        apply Ascii.eqb_eq in E2. exists (c :: w). simpl. split; [congruence|]. constructor; auto.
      * inversion H; subst. exists []. auto.
Qed.

Lemma skip_wild_none : forall p t, skip_wild p t = None -> ~ some_suffix p t.
Proof.
  induction p as [|c p IH]; simpl; intros t H; [discriminate|].
  destruct (Ascii.eqb c "?") eqn:E1.
  - apply Ascii.eqb_eq in E1. subst. destruct t as [|x t].
    + intros [s [H1 H2]]. apply suffix_nil in H1. subst. inversion H2.
    + rewrite some_suffix_any. auto.
  - destruct (Ascii.eqb c "*") eqn:E2; [|discriminate].
    apply Ascii.eqb_eq in E2. subst. rewrite some_suffix_star. auto.
Qed.

Lemma skip_wild_some : forall p t p' t', skip_wild p t = Some (p', t') ->
  (some_suffix p t <-> some_suffix p' t').
Proof.
  induction p as [|c p IH]; simpl; intros t p' t' H.
  - inversion H. tauto.
  - destruct (Ascii.eqb c "?") eqn:E1.
    + apply Ascii.eqb_eq in E1. subst. destruct t as [|x t]; [discriminate|].
      rewrite some_suffix_any. auto.
    + destruct (Ascii.eqb c "*") eqn:E2.
      * apply Ascii.eqb_eq in E2. subst. rewrite some_suffix_star. auto.
      * inversion H. tauto.
Qed.

(** The loop returns VALID only if [f] accepts some suffix. *)
Lemma star_loop_sound : forall f nextp t m,
  m <> M_VALID ->
  star_loop f nextp m t = M_VALID -> exists s, suffix s t /\ f s = M_VALID.
Proof.
  induction t as [|x t IH]; simpl; intros m Hm H; [discriminate|].
  destruct (Ascii.eqb nextp x || Ascii.eqb nextp "[") eqn:E.
  - destruct (f (x :: t)) eqn:F; try discriminate;
      try (apply IH in H; [|congruence]; destruct H as [s [H1 H2]]; exists s; split; auto; apply suffix_cons; auto).
    exists (x :: t). split; auto. apply suffix_refl.
  - destruct m; try discriminate; try congruence;
      (apply IH in H; [|congruence]; destruct H as [s [H1 H2]]; exists s; split; auto; apply suffix_cons; auto).
Qed.

(** The loop never returns with "undecided" results. *)
Lemma star_loop_result : forall f nextp t m,
  m <> M_PATTERN ->
  (forall s, f s <> M_PATTERN) ->
  star_loop f nextp m t = M_VALID \/ star_loop f nextp m t = M_ABORT.
Proof.
  induction t as [|x t IH]; simpl; intros m Hm Hf; auto.
  destruct (Ascii.eqb nextp x || Ascii.eqb nextp "[") eqn:E.
  - destruct (f (x :: t)) eqn:F; auto; try (apply IH; [congruence|auto]).
    exfalso. apply (Hf (x :: t)). auto.
  - destruct m; auto; try congruence; apply IH; auto.
Qed.

(** Completeness of the loop. *)
Lemma star_loop_complete : forall f nextp p2 t m,
  nextp <> "?"%char -> nextp <> "*"%char ->
  (forall s, f s = M_VALID <-> glob (nextp :: p2) s) ->
  (forall s, f s = M_ABORT -> ~ some_suffix (nextp :: p2) s) ->
  (forall s, f s <> M_PATTERN) ->
  m <> M_PATTERN -> m <> M_ABORT ->
  some_suffix (nextp :: p2) t ->
  star_loop f nextp m t = M_VALID.
Proof.
  intros f nextp p2. induction t as [|x t IH]; intros m N1 N2 Hv Ha Hp Hm1 Hm2 Hs.
  - destruct Hs as [s [H1 H2]]. apply suffix_nil in H1. subst. inversion H2; subst; congruence.
  - simpl. destruct (Ascii.eqb nextp x || Ascii.eqb nextp "[") eqn:E.
    + assert (Hrec : glob (nextp :: p2) (x :: t) \/ some_suffix (nextp :: p2) t).
      { destruct Hs as [s [H1 H2]]. apply suffix_inv in H1. destruct H1 as [H1|H1].
        - subst. auto.
        - right. exists s. auto. }
      destruct (f (x :: t)) eqn:F; auto.
      * destruct Hrec as [H|H]; [apply Hv in H; congruence|]. apply IH; auto; congruence.
      * destruct Hrec as [H|H]; [apply Hv in H; congruence|]. apply IH; auto; congruence.
      * exfalso. apply (Ha _ F). auto.
      * destruct Hrec as [H|H]; [apply Hv in H; congruence|]. apply IH; auto; congruence.
      * exfalso. eapply Hp; eauto.
    + assert (Hrec : some_suffix (nextp :: p2) t).
      { destruct Hs as [s [H1 H2]]. apply suffix_inv in H1. destruct H1 as [H1|H1].
        - subst. apply orb_false_iff in E. destruct E as [E _].
          apply glob_lit_inv in H2; auto. destruct H2 as [t1 [H2 _]].
          inversion H2; subst. rewrite Ascii.eqb_refl in E. discriminate.
        - exists s. auto. }
      destruct m; auto; try congruence; apply IH; auto; congruence.
Qed.

Lemma not_dse_tail : forall c p, no_double_star_end (c :: p) -> no_double_star_end p.
Proof. intros c p H q E. apply (H (c :: q)). simpl. congruence. Qed.

Lemma not_dse_app : forall w p, no_double_star_end (w ++ p) -> no_double_star_end p.
Proof. induction w as [|c w IH]; simpl; intros p H; auto. apply IH. eapply not_dse_tail; eauto. Qed.

Lemma glob_empty_stars : forall p, glob p [] -> Forall (fun c => c = "*"%char) p.
Proof.
  induction p as [|c p IH]; intro H; constructor.
  - inversion H; auto.
  - apply IH. inversion H as [| | |u p0 t0 H1 E1 E2]; subst.
    destruct u; [|discriminate]. simpl in E2. subst. auto.
Qed.

Lemma stars_dse : forall p, Forall (fun c => c = "*"%char) p -> p <> [] ->
  ~ no_double_star_end ("*"%char :: p).
Proof.
  intros p H Hne D. destruct (exists_last Hne) as [q [a E]]. subst.
  apply Forall_app in H. destruct H as [H1 H2]. inversion H2; subst.
  assert (Hq : forall q, Forall (fun c => c = "*"%char) q -> "*"%char :: q = q ++ ["*"%char]).
  { induction q0 as [|c q0 IHq]; intro Hq; simpl; auto. inversion Hq; subst.
    f_equal. auto. }
  apply (D q). rewrite app_comm_cons. rewrite (Hq q H1). rewrite <- app_assoc. reflexivity.
Qed.

(** Main induction. *)
Lemma Matche_correct : forall n p, List.length p < n ->
  no_backslash p -> no_double_star_end p ->
  forall t, (Matche n p t = M_VALID <-> glob p t)
         /\ (Matche n p t = M_ABORT -> ~ some_suffix p t)
         /\ Matche n p t <> M_PATTERN.
Proof.
  induction n as [|n IH]; intros p Hn Hb Hd t; [lia|].
  destruct p as [|c p].
  { destruct t as [|x t]; cbn [Matche].
    - split; [|split]; try discriminate. rewrite glob_nil_inv. tauto.
    - split; [|split]; try discriminate. rewrite glob_nil_inv. split; discriminate. }
  assert (Hb' : no_backslash p) by (intro X; apply Hb; right; auto).
  assert (Hd' : no_double_star_end p) by (eapply not_dse_tail; eauto).
  simpl in Hn.
  destruct t as [|x t]; cbn [Matche].
  { assert (Hss : some_suffix (c :: p) [] <-> glob (c :: p) []).
    { split.
      - intros [s [H1 H2]]. apply suffix_nil in H1. subst. auto.
      - intro H. exists []. split; auto. apply suffix_refl. }
    destruct (Ascii.eqb c "*" && beq p []) eqn:E.
    - apply andb_true_iff in E. destruct E as [E1 E2]. apply Ascii.eqb_eq in E1. apply beq_eq in E2. subst.
      split; [|split]; try discriminate. split; auto. intros _.
      apply glob_star_inv. exists []. split; [apply suffix_refl|constructor].
    - assert (Hng : ~ glob (c :: p) []).
      { intro H. pose proof (glob_empty_stars _ H) as Hst. inversion Hst; subst.
        rewrite Ascii.eqb_refl in E. simpl in E. apply beq_neq in E.
        apply (stars_dse p); auto. }
      split; [|split]; try discriminate.
      + split; [discriminate|contradiction].
      + intros _. rewrite Hss. auto. }
  destruct (Ascii.eqb c "?") eqn:E1.
  { apply Ascii.eqb_eq in E1. subst. destruct (IH p ltac:(lia) Hb' Hd' t) as [H1 [H2 H3]].
    split; [|split]; auto.
    - rewrite H1. rewrite glob_any_inv. split.
      + intro H. eauto.
      + intros [y [t1 [E H]]]. inversion E; subst. auto.
    - intro H. rewrite some_suffix_any. auto. }
  destruct (Ascii.eqb c "*") eqn:E2.
  { apply Ascii.eqb_eq in E2. subst.
    assert (Hstar : glob ("*"%char :: p) (x :: t) <-> some_suffix ("*"%char :: p) (x :: t)).
    { rewrite some_suffix_star. apply glob_star_inv. }
    rewrite Hstar.
    destruct (skip_wild ("*"%char :: p) (x :: t)) as [[[|d p2] t2]|] eqn:Sk.
    - split; [|split]; try discriminate. split; auto. intros _.
      apply (skip_wild_some _ _ _ _ Sk). exists []. split; [apply suffix_nil_any|constructor].
    - pose proof (skip_wild_lit _ _ _ _ _ Sk) as [Nd1 Nd2].
      destruct (skip_wild_suffix _ _ _ _ Sk) as [w [Hw Fw]].
      assert (Hlw : List.length (d :: p2) < n).
      { destruct w as [|c w]; simpl in Hw.
        - inversion Hw; subst. congruence.
        - inversion Hw; subst. rewrite app_length in Hn. simpl in *. lia. }
      assert (Hbd : no_backslash (d :: p2)).
      { intro X. apply Hb. rewrite Hw. apply in_or_app. auto. }
      assert (Hdd : no_double_star_end (d :: p2)).
      { rewrite Hw in Hd. eapply not_dse_app; eauto. }
      assert (Ed : Ascii.eqb d "\" = false).
      { apply Ascii.eqb_neq. intro X. subst. apply Hbd. left. auto. }
      rewrite Ed.
      pose proof (IH (d :: p2) Hlw Hbd Hdd) as IHd.
      rewrite (skip_wild_some _ _ _ _ Sk).
      assert (Hsound : star_loop (Matche n (d :: p2)) d M_NONE t2 = M_VALID -> some_suffix (d :: p2) t2).
      { intro H. apply star_loop_sound in H; [|discriminate]. destruct H as [s [H1 H2]].
        exists s. split; auto. apply IHd. auto. }
      assert (Hcompl : some_suffix (d :: p2) t2 -> star_loop (Matche n (d :: p2)) d M_NONE t2 = M_VALID).
      { intro H. apply star_loop_complete with (p2 := p2); auto; try discriminate.
        - intro s. apply IHd.
        - intros s Hs. apply IHd. auto.
        - intro s. apply IHd. }
      split; [split; auto|].
      destruct (star_loop_result (Matche n (d :: p2)) d t2 M_NONE ltac:(discriminate)) as [R|R].
      { intro s. apply IHd. }
      + rewrite R. split; discriminate.
      + split; [|rewrite R; discriminate]. intros _ H. apply Hcompl in H. congruence.
    - pose proof (skip_wild_none _ _ Sk) as Hn'.
      split; [|split]; try discriminate.
      + split; [discriminate | contradiction].
      + auto. }
  apply Ascii.eqb_neq in E1. apply Ascii.eqb_neq in E2.
  destruct (Ascii.eqb c x) eqn:E3.
  - apply Ascii.eqb_eq in E3. subst. destruct (IH p ltac:(lia) Hb' Hd' t) as [H1 [H2 H3]].
    split; [|split]; auto.
    + rewrite H1. rewrite glob_lit_inv by auto. split.
      * intro H. eauto.
      * intros [t1 [E H]]. inversion E; subst. auto.
    + intros Ha [s [Hs Hg]]. apply glob_lit_inv in Hg; auto. destruct Hg as [s1 [E Hg]]. subst.
      apply (H2 Ha). exists s1. split; auto. apply suffix_inv in Hs. destruct Hs as [Hs|Hs].
      * inversion Hs. apply suffix_refl.
      * eapply suffix_tail; eauto.
  - split; [|split]; try discriminate. split; [discriminate|].
    intro H. apply glob_lit_inv in H; auto. destruct H as [t1 [E _]]. inversion E; subst.
    rewrite Ascii.eqb_refl in E3. discriminate.
Qed.

Lemma Match_exact : forall p t, no_backslash p -> no_double_star_end p ->
  (Match p t = true <-> glob p t).
Proof.
  intros p t Hb Hd. unfold Match.
  destruct (Matche_correct (S (List.length p)) p (Nat.lt_succ_diag_r _) Hb Hd t) as [H _].
  rewrite <- H. destruct (Matche _ p t); split; congruence.
Qed.

(** Soundness needs no side conditions. *)
Lemma Matche_sound : forall n p t, Matche n p t = M_VALID -> glob p t.
Proof.
  induction n as [|n IH]; intros p t H; [discriminate|].
  destruct p as [|c p]; [destruct t; [constructor|discriminate]|].
  destruct t as [|x t]; cbn [Matche] in H.
  - destruct (Ascii.eqb c "*" && beq p []) eqn:E; [|discriminate].
    apply andb_true_iff in E. destruct E as [E1 E2]. apply Ascii.eqb_eq in E1. apply beq_eq in E2. subst.
    apply glob_star_inv. exists []. split; [apply suffix_refl|constructor].
  - destruct (Ascii.eqb c "?") eqn:E1.
    { apply Ascii.eqb_eq in E1. subst. constructor. auto. }
    destruct (Ascii.eqb c "*") eqn:E2.
    { apply Ascii.eqb_eq in E2. subst.
      assert (Hs : some_suffix ("*"%char :: p) (x :: t)).
      { destruct (skip_wild ("*"%char :: p) (x :: t)) as [[[|d p2] t2]|] eqn:Sk; [| |discriminate].
        - apply (skip_wild_some _ _ _ _ Sk). exists []. split; [apply suffix_nil_any|constructor].
        - apply (skip_wild_some _ _ _ _ Sk).
          destruct (Ascii.eqb d "\").
          + destruct p2 as [|d2 p2]; [discriminate|].
            apply star_loop_sound in H; [|discriminate]. destruct H as [s [H1 H2]].
            exists s. split; auto.
          + apply star_loop_sound in H; [|discriminate]. destruct H as [s [H1 H2]].
            exists s. split; auto. }
      rewrite some_suffix_star in Hs. apply glob_star_inv. auto. }
    destruct (Ascii.eqb c x) eqn:E3; [|discriminate].
    apply Ascii.eqb_eq in E3. subst. apply Ascii.eqb_neq in E1. apply Ascii.eqb_neq in E2.
    constructor; auto.
Qed.

Lemma Match_sound : forall p t, Match p t = true -> glob p t.
Proof.
  intros p t H. unfold Match in H. destruct (Matche _ p t) eqn:E; try discriminate.
  eapply Matche_sound; eauto.
Qed.

(** Case-insensitive variant. *)
Lemma tolower_wild : forall c, (tolower c = "?"%char <-> c = "?"%char) /\ (tolower c = "*"%char <-> c = "*"%char)
  /\ (tolower c = "\"%char <-> c = "\"%char).
Proof. intros [[] [] [] [] [] [] [] []]; vm_compute; repeat split; intro H; congruence. Qed.

Lemma globi_lower : forall p t, globi p t <-> glob (lower p) (lower t).
Proof.
  split.
  - induction 1; simpl.
    + constructor.
    + rewrite <- H1. constructor; auto; rewrite ?(proj1 (tolower_wild c)); auto.
      intro X. apply (proj1 (proj2 (tolower_wild c))) in X. auto.
    + constructor; auto.
    + rewrite lower_app. apply (glob_star (lower u)). auto.
  - revert t. induction p as [|c p IH]; intros t H; simpl in H.
    + apply glob_nil_inv in H. destruct t; [constructor|discriminate].
    + destruct (tolower_wild c) as [W1 [W2 _]].
      destruct (ascii_dec c "?") as [E|E].
      * subst. change (tolower "?") with "?"%char in H. apply glob_any_inv in H.
        destruct H as [x [t1 [E H]]]. destruct t as [|y t]; [discriminate|].
        inversion E; subst. apply globi_any. apply IH. exact H.
      * destruct (ascii_dec c "*") as [E'|E'].
        -- subst. change (tolower "*") with "*"%char in H. apply glob_star_inv in H.
           destruct H as [s [[u Hu] H]].
           unfold lower in Hu. apply map_eq_app in Hu. destruct Hu as [l1 [l2 [E1 [E2 E3]]]]. subst.
           apply globi_star. apply IH. exact H.
        -- apply glob_lit_inv in H; try (rewrite ?W1, ?W2; auto).
           destruct H as [t1 [Et H]]. destruct t as [|y t]; [discriminate|].
           inversion Et; subst. constructor; auto.
Qed.

Lemma no_backslash_lower : forall p, no_backslash p -> no_backslash (lower p).
Proof.
  intros p H X. apply in_map_iff in X. destruct X as [c [E X]].
  apply (proj2 (proj2 (tolower_wild c))) in E. subst. auto.
Qed.

Lemma no_dse_lower : forall p, no_double_star_end p -> no_double_star_end (lower p).
Proof.
  intros p H q E. unfold lower in E. apply map_eq_app in E. destruct E as [l1 [l2 [E1 [E2 E3]]]].
  destruct l2 as [|a [|b [|]]]; try discriminate. injection E3 as Ea Eb.
  apply (proj1 (proj2 (tolower_wild a))) in Ea. apply (proj1 (proj2 (tolower_wild b))) in Eb.
  subst. apply (H l1). reflexivity.
Qed.

Lemma MatchCI_exact : forall p t,
  List.length p < COMMAND_LEN -> List.length t < COMMAND_LEN ->
  no_backslash p -> no_double_star_end p ->
  (MatchCaseInsensitive p t = true <-> globi p t).
Proof.
  intros p t Hp Ht Hb Hd. unfold MatchCaseInsensitive.
  rewrite !strlcpy_short by auto.
  rewrite Match_exact by (auto using no_backslash_lower, no_dse_lower).
  symmetry. apply globi_lower.
Qed.

Lemma MatchCI_sound : forall p t,
  MatchCaseInsensitive p t = true -> globi (firstn 512 p) (firstn 512 t).
Proof.
  intros p t H. unfold MatchCaseInsensitive in H. apply Match_sound in H.
  rewrite !strlcpy_is_firstn in H by (unfold COMMAND_LEN; lia).
  apply globi_lower. exact H.
Qed.
