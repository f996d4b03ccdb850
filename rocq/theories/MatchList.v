(** Lists of patterns (C01): specification and proofs. *)
From Coq Require Import List Ascii String ZArith NArith Bool Lia Arith.
From Verif Require Import Bytes Strl Match MatchSpec MatchProofs.
Import ListNotations.

(** [e] is one of the parts of [l] between the separators *)
Definition entry_of (sep : ascii) (l e : bytes) : Prop :=
  e <> [] /\ ~ In sep e /\ exists a b, l = a ++ e ++ b /\ (a = [] \/ exists a', a = a' ++ [sep]) /\ (b = [] \/ exists b', b = sep :: b').
(** space, tabulator and the end of line characters *)
Definition blank (c : ascii) : Prop := In c (B " " ++ [TAB; CR; LF]).
(** [m] is [e] without the blanks in front and at the end *)
Definition stripped (e m : bytes) : Prop :=
  exists x y, e = x ++ m ++ y /\ Forall blank x /\ Forall blank y /\ (forall c r, m = c :: r -> ~ blank c) /\ (forall c r, m = r ++ [c] -> ~ blank c).

Lemma blank_iff : forall c, blank c <-> is_space4 c = true.
Proof.
  intro c. unfold blank, is_space4. rewrite !orb_true_iff, !Ascii.eqb_eq. cbn [app B list_ascii_of_string In]. split.
  - intros [<- |[<- |[<- |[<- |[]]]]]; auto.
  - intros [[[-> | ->]| ->]| ->]; auto.
Qed.
Lemma drop_all : forall f x m, Forall (fun c => f c = true) x -> drop_while f (x ++ m) = drop_while f m.
Proof. induction 1 as [|c x H _ IH]; cbn [app drop_while]; auto. rewrite H. exact IH. Qed.
Lemma drop_head : forall f m, (forall c r, m = c :: r -> f c = false) -> drop_while f m = m.
Proof. intros f [|c r] H; [reflexivity|]. cbn [drop_while]. rewrite (H c r eq_refl). reflexivity. Qed.
Lemma drop_spec : forall f s, exists x, s = x ++ drop_while f s /\ Forall (fun c => f c = true) x /\ forall c r, drop_while f s = c :: r -> f c = false.
Proof.
  intros f s. induction s as [|c s (x & E & H & K)]; cbn [drop_while].
  - exists []. split; auto. split; auto. discriminate.
  - destruct (f c) eqn:FC; [|exists []; split; auto; split; auto; congruence]. exists (c :: x). split; [cbn [app]; congruence|]. split; auto.
Qed.
Lemma blanks : forall x, Forall blank x <-> Forall (fun c => is_space4 c = true) x.
Proof. intro x. rewrite !Forall_forall. split; intros H c I; apply blank_iff; auto. Qed.
Lemma no_blank : forall c, ~ blank c <-> is_space4 c = false.
Proof. intro c. rewrite blank_iff. destruct (is_space4 c); intuition congruence. Qed.
Lemma stripped_trim : forall e m, stripped e m <-> m = trim e.
Proof.
  intros e m. unfold trim. split.
  - intros (x & y & -> & X & Y & H1 & H2). apply blanks in X, Y. rewrite (drop_all _ _ _ X). destruct m as [|c m].
    + cbn [app]. replace (drop_while is_space4 y) with (@nil ascii); [reflexivity|]. rewrite <- (app_nil_r y), (drop_all _ _ _ Y). reflexivity.
    + rewrite (drop_head _ ((c :: m) ++ y)).
      * rewrite rev_app_distr, drop_all by (apply Forall_rev; exact Y). rewrite drop_head, rev_involutive; auto. intros d r E. apply no_blank. apply (H2 d (rev r)). rewrite <- (rev_involutive (c :: m)), E. reflexivity.
      * intros d r E. apply no_blank. apply (H1 d m). cbn [app] in E. congruence.
  - intros ->. destruct (drop_spec is_space4 e) as (x & E & X & H1). destruct (drop_spec is_space4 (rev (drop_while is_space4 e))) as (y & F & Y & H2). set (d := drop_while is_space4 e) in *. set (k := drop_while is_space4 (rev d)) in *.
    assert (ED : d = rev k ++ rev y) by (rewrite <- (rev_involutive d), F, rev_app_distr; reflexivity). exists x, (rev y). split; [rewrite E, ED; reflexivity|]. split; [apply blanks; exact X|]. split; [apply blanks, Forall_rev; exact Y|]. split.
    + intros c r EK. apply no_blank. apply (H1 c (r ++ rev y)). rewrite ED, EK. reflexivity.
    + intros c r EK. apply no_blank. apply (H2 c (rev r)). rewrite <- (rev_involutive k), EK, rev_app_distr. reflexivity.
Qed.

Lemma first_sep : forall (d : ascii) (w r a z : bytes), ~ In d w -> w ++ d :: r = a ++ d :: z -> a = w /\ z = r \/ exists a', a = w ++ d :: a' /\ r = a' ++ d :: z.
Proof.
  induction w as [|c w IH]; intros r a z N E; destruct a as [|x a]; cbn [app] in E.
  - injection E as <-. auto.
  - injection E as <- ->. right. exists a. auto.
  - injection E as -> _. destruct N. left. reflexivity.
  - injection E as -> E. destruct (IH r a z) as [[-> ->]|(a' & -> & ->)]; [intro I; apply N; right; exact I|exact E|left; auto|right; exists a'; auto].
Qed.
Lemma entry_plain : forall d w e, ~ In d w -> (entry_of d w e <-> e = w /\ w <> []).
Proof.
  intros d w e N. split.
  - intros (NE & ND & a & b & -> & A & K). destruct A as [-> |(a' & ->)]; [|destruct N; rewrite !in_app_iff; cbn; auto]. destruct K as [-> |(b' & ->)]; [|destruct N; cbn [app]; rewrite !in_app_iff; cbn; auto]. cbn [app]. rewrite app_nil_r. auto.
  - intros [-> NE]. split; auto. split; auto. exists [], []. cbn [app]. rewrite app_nil_r. auto.
Qed.
Lemma entry_step : forall d w r e, ~ In d w -> (entry_of d (w ++ d :: r) e <-> (e = w /\ w <> []) \/ entry_of d r e).
Proof.
  intros d w r e N. split.
  - intros (NE & ND & a & b & E & A & K). destruct A as [-> |(a' & ->)].
    + left. cbn [app] in E. destruct K as [-> |(b' & ->)].
      * exfalso. apply ND. rewrite app_nil_r in E. rewrite <- E. apply in_app_iff. right. left. reflexivity.
      * destruct (first_sep _ _ _ _ _ N E) as [[-> _]|(a' & -> & _)]; [auto|]. exfalso. apply ND. apply in_app_iff. right. left. reflexivity.
    + right. rewrite <- app_assoc in E. cbn [app] in E. destruct (first_sep _ _ _ _ _ N E) as [[-> <-]|(a2 & -> & ->)].
      * split; auto. split; auto. exists [], b. auto.
      * split; auto. split; auto. exists (a2 ++ [d]), b. split; [rewrite <- app_assoc; reflexivity|]. eauto.
  - intros [[-> NE]|(NE & ND & a & b & -> & A & K)].
    + split; auto. split; auto. exists [], (d :: r). split; [reflexivity|]. split; [left; reflexivity|right; exists r; reflexivity].
    + split; auto. split; auto. exists (w ++ d :: a), b. split; [rewrite <- app_assoc; reflexivity|]. split; [|exact K]. right. destruct A as [-> |(a' & ->)]; [exists w; reflexivity|]. exists (w ++ d :: a'). rewrite <- app_assoc. reflexivity.
Qed.
Lemma strtok_entries : forall d s cur e, ~ In d cur -> (In e (strtok_aux d s cur) <-> entry_of d (rev cur ++ s) e).
Proof.
  intros d s. induction s as [|c s IH]; intros cur e N; cbn [strtok_aux].
  - rewrite app_nil_r, entry_plain by (rewrite <- in_rev; exact N). destruct cur as [|x cur]; [cbn; intuition congruence|]. cbn [In]. split; [intros [<- |[]]; split; auto|intros [-> _]; auto]. intro E. apply (f_equal (@rev ascii)) in E. rewrite rev_involutive in E. discriminate E.
  - destruct (Ascii.eqb_spec c d) as [-> |NE].
    + rewrite entry_step by (rewrite <- in_rev; exact N). destruct cur as [|x cur].
      * rewrite (IH [] e) by (intros []). cbn [rev app]. intuition congruence.
      * cbn [In]. rewrite (IH [] e) by (intros []). cbn [rev app]. split; [intros [<- |H]; auto; left; split; auto|intros [[-> _]|H]; auto]. intro E. destruct (rev cur); discriminate E.
    + rewrite (IH (c :: cur) e) by (intros [X|X]; [congruence|contradiction]). cbn [rev]. rewrite <- app_assoc. reflexivity.
Qed.
Lemma strtok_entry : forall d l e, In e (strtok_aux d l []) <-> entry_of d l e.
Proof. intros d l e. exact (strtok_entries d l [] e (fun F => F)). Qed.
Lemma list_entries : forall l t sep, MatchCaseInsensitiveList l t sep = true <-> exists e m, entry_of sep (strlcpy COMMAND_LEN l) e /\ stripped e m /\ MatchCaseInsensitive m t = true.
Proof.
  intros l t sep. unfold MatchCaseInsensitiveList, strtok. rewrite existsb_exists. split.
  - intros (e & I & H). exists e, (trim e). split; [apply strtok_entries in I; [exact I|intros []]|]. split; [apply stripped_trim; reflexivity|exact H].
  - intros (e & m & I & S & H). apply stripped_trim in S. subst m. exists e. split; auto. apply strtok_entries; [intros []|exact I].
Qed.
Lemma part_of : forall sep l e m, entry_of sep l e -> stripped e m -> List.length m <= List.length l /\ forall c, In c m -> In c l.
Proof.
  intros sep l e m (_ & _ & a & b & -> & _) (x & y & -> & _). split; [rewrite !app_length; lia|]. intros c I. rewrite !in_app_iff. auto.
Qed.
Theorem list_exact : forall l t sep, List.length l < 513 -> List.length t < 513 -> no_backslash l -> (forall e m, entry_of sep l e -> stripped e m -> no_double_star_end m) ->
  (MatchCaseInsensitiveList l t sep = true <-> exists e m, entry_of sep l e /\ stripped e m /\ globi m t).
Proof.
  intros l t sep LL LT NB ND. rewrite list_entries. rewrite strlcpy_short by (unfold COMMAND_LEN; exact LL).
  assert (K : forall e m, entry_of sep l e -> stripped e m -> (MatchCaseInsensitive m t = true <-> globi m t)).
  { intros e m I S. destruct (part_of _ _ _ _ I S) as [P1 P2]. apply MatchCI_exact; [unfold COMMAND_LEN; lia|exact LT| |exact (ND _ _ I S)]. intro X. exact (NB (P2 _ X)). }
  split; intros (e & m & I & S & H); exists e, m; split; auto; split; auto; apply (K e m I S); exact H.
Qed.
Theorem list_sound : forall l t sep, MatchCaseInsensitiveList l t sep = true -> exists e m, entry_of sep (firstn 512 l) e /\ stripped e m /\ globi m (firstn 512 t).
Proof.
  intros l t sep H. apply list_entries in H. rewrite strlcpy_is_firstn in H by (unfold COMMAND_LEN; lia). destruct H as (e & m & I & S & H). exists e, m. split; [exact I|]. split; auto. apply MatchCI_sound in H. destruct (part_of _ _ _ _ I S) as [P1 _]. rewrite firstn_length in P1. rewrite (firstn_all2 m) in H by (unfold COMMAND_LEN in P1; lia). exact H.
Qed.
