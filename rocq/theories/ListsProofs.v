(** Proofs about the mask lists (src/ngircd/lists.c). *)
From Coq Require Import List Ascii String ZArith Bool Lia Arith.
From Verif Require Import Bytes Match MatchSpec MatchProofs Lists.
Import ListNotations.

(** ---- specification ---- *)

(** The entry stored for a mask, ignoring case: the list seen as a finite map. *)
Definition entry (h : mlist) (mask : bytes) : option lelem :=
  find (fun e => caseeq (le_mask e) mask) h.

(** No two entries are equal ignoring case, and all masks fit into their buffer. *)
Definition list_ok (h : mlist) : Prop :=
  NoDup (map (fun e => lower (le_mask e)) h) /\ Forall (fun e => List.length (le_mask e) < MASK_LEN) h.

(** Operations on a list as executed by the rest of the server. *)
Inductive lop :=
| LAdd (mask : bytes) (valid : Z) (reason : option bytes) (once : bool)
| LDel (mask : bytes)
| LCheck (cloaked real : bytes)
| LExpire (now : Z)
| LFree.

Definition lop_valid (o : lop) : Prop :=
  match o with LAdd m _ _ _ => List.length m < MASK_LEN | _ => True end.

Definition lop_run (h : mlist) (o : lop) : mlist :=
  match o with
  | LAdd m v r o => Lists_Add h m v r o
  | LDel m => Lists_Del h m
  | LCheck c r => snd (Lists_Check h c r)
  | LExpire now => fst (Lists_Expire now h)
  | LFree => Lists_Free h
  end.

(** ---- proofs ---- *)
Lemma entry_In : forall h m e, entry h m = Some e -> In e h /\ lower (le_mask e) = lower m.
Proof. intros h m e H. apply find_some in H. rewrite caseeq_iff in H. exact H. Qed.

Lemma entry_None : forall h m, entry h m = None <-> ~ In (lower m) (map (fun e => lower (le_mask e)) h).
Proof.
  intros h m. split.
  - intros H X. apply in_map_iff in X. destruct X as [e [E X]].
    pose proof (find_none _ _ H _ X) as F. simpl in F.
    assert (caseeq (le_mask e) m = true) by (apply caseeq_iff; auto). congruence.
  - intro H. destruct (entry h m) as [e|] eqn:E; auto. exfalso. apply H.
    apply entry_In in E. destruct E as [E1 E2]. apply in_map_iff. exists e. auto.
Qed.

Lemma entry_unique : forall h e, list_ok h -> In e h -> entry h (le_mask e) = Some e.
Proof.
  intros h e [ND _]. induction h as [|x h IH]; intros Hin; [destruct Hin|].
  simpl in ND. inversion ND; subst. unfold entry. simpl.
  destruct Hin as [->|Hin].
  - rewrite caseeq_refl. reflexivity.
  - destruct (caseeq (le_mask x) (le_mask e)) eqn:E.
    + apply caseeq_iff in E. exfalso. apply H1. rewrite E. apply in_map_iff. exists e. auto.
    + apply IH; auto.
Qed.

Lemma upd_first_masks : forall m v r h, map le_mask (upd_first m v r h) = map le_mask h.
Proof.
  intros m v r. induction h as [|e h IH]; simpl; auto.
  destruct (caseeq (le_mask e) m); simpl; [reflexivity|]. rewrite IH. reflexivity.
Qed.

Lemma map_lower_masks : forall h, map (fun e => lower (le_mask e)) h = map lower (map le_mask h).
Proof. intro h. rewrite map_map. reflexivity. Qed.

Lemma list_ok_masks : forall h h', map le_mask h = map le_mask h' -> list_ok h -> list_ok h'.
Proof.
  intros h h' E [H1 H2]. split.
  - rewrite map_lower_masks in *. rewrite <- E. exact H1.
  - assert (F : Forall (fun m => List.length m < MASK_LEN) (map le_mask h)) by (apply Forall_map; auto).
    rewrite E in F. apply Forall_map in F. exact F.
Qed.

Lemma NoDup_filter_map : forall (f : lelem -> bytes) p h, NoDup (map f h) -> NoDup (map f (filter p h)).
Proof.
  intros f p. induction h as [|e h IH]; simpl; intro H; auto.
  inversion H; subst. destruct (p e); simpl; auto. constructor; auto.
  intro X. apply H2. apply in_map_iff in X. destruct X as [x [E X]]. apply filter_In in X.
  apply in_map_iff. exists x. tauto.
Qed.

Lemma list_ok_filter : forall p h, list_ok h -> list_ok (filter p h).
Proof.
  intros p h [H1 H2]. split; [apply NoDup_filter_map; auto|].
  apply Forall_forall. intros e He. apply filter_In in He. rewrite Forall_forall in H2. apply H2. tauto.
Qed.

Lemma Lists_Del_filter : forall h m, Lists_Del h m = filter (fun e => negb (caseeq (le_mask e) m)) h.
Proof. induction h as [|e h IH]; intro m; simpl; auto. destruct (caseeq (le_mask e) m); simpl; rewrite IH; auto. Qed.

Lemma Lists_Expire_filter : forall now h,
  fst (Lists_Expire now h) = filter (fun e => negb ((0 <? le_valid e) && (le_valid e <? now))%Z) h /\
  snd (Lists_Expire now h) = filter (fun e => (0 <? le_valid e) && (le_valid e <? now))%Z h.
Proof.
  intros now. induction h as [|e h [I1 I2]]; simpl; auto. unfold le_expired.
  destruct (Lists_Expire now h) as [k d]. simpl in *. subst.
  destruct ((0 <? le_valid e) && (le_valid e <? now))%Z; simpl; auto.
Qed.

Lemma CheckReason_list : forall h c r, 
  (snd (Lists_CheckReason h c r) = h) \/
  (exists h1 e h2, h = h1 ++ e :: h2 /\ snd (Lists_CheckReason h c r) = h1 ++ h2
     /\ le_once e = true /\ le_match e c r = true /\ Forall (fun x => le_match x c r = false) h1).
Proof.
  induction h as [|e h IH]; intros c r; simpl; auto.
  destruct (le_match e c r) eqn:E; simpl.
  - destruct (le_once e) eqn:O; simpl; auto. right. exists [], e, h. repeat split; auto.
  - destruct (Lists_CheckReason h c r) as [res h'] eqn:E2. simpl.
    specialize (IH c r). rewrite E2 in IH. simpl in IH. destruct IH as [->|[h1 [x [h2 [E3 [E4 [E5 [E6 E7]]]]]]]].
    + left. reflexivity.
    + right. exists (e :: h1), x, h2. subst. repeat split; auto.
Qed.

Lemma list_ok_remove : forall h1 e h2, list_ok (h1 ++ e :: h2) -> list_ok (h1 ++ h2).
Proof.
  intros h1 e h2 [H1 H2]. split.
  - rewrite map_app in *. simpl in H1. apply NoDup_remove_1 in H1. exact H1.
  - apply Forall_app in H2. destruct H2 as [A B2]. inversion B2; subst. apply Forall_app; auto.
Qed.

Lemma Lists_Add_ok : forall h m v r o, list_ok h -> list_ok (Lists_Add h m v r o) \/ MASK_LEN <= List.length m.
Proof.
  intros h m v r o H. unfold Lists_Add, Lists_CheckDupeMask.
  change (find (fun e => caseeq (le_mask e) m) h) with (entry h m).
  destruct (entry h m) eqn:E.
  - left. eapply list_ok_masks; [symmetry; apply upd_first_masks|auto].
  - destruct (Nat.leb_spec MASK_LEN (List.length m)); [right; auto|left].
    rewrite strlcpy_short by auto. destruct H as [H1 H2]. split; simpl.
    + constructor; auto. apply entry_None. exact E.
    + constructor; auto.
Qed.

Lemma lop_run_ok : forall h o, list_ok h -> lop_valid o -> list_ok (lop_run h o).
Proof.
  intros h o H V. destruct o; simpl in *.
  - destruct (Lists_Add_ok h mask valid reason once H) as [X|X]; auto. unfold lop_valid in V. lia.
  - rewrite Lists_Del_filter. apply list_ok_filter; auto.
  - unfold Lists_Check. destruct (Lists_CheckReason h cloaked real) as [res h'] eqn:E. simpl.
    destruct (CheckReason_list h cloaked real) as [X|[h1 [e [h2 [E1 [E2 _]]]]]]; rewrite E in *; simpl in *; subst; auto.
    eapply list_ok_remove; eauto.
  - rewrite (proj1 (Lists_Expire_filter now h)). apply list_ok_filter; auto.
  - split; constructor.
Qed.

Lemma lists_history_ok : forall ops, Forall lop_valid ops -> list_ok (fold_left lop_run ops []).
Proof.
  assert (G : forall ops h, list_ok h -> Forall lop_valid ops -> list_ok (fold_left lop_run ops h)).
  { induction ops as [|o ops IH]; intros h H V; simpl; auto. inversion V; subst. apply IH; auto. apply lop_run_ok; auto. }
  intros ops V. apply G; auto. split; constructor.
Qed.

(** Adding. *)
Lemma entry_upd_first_other : forall m m' v r h, caseeq m m' = false -> entry (upd_first m v r h) m' = entry h m'.
Proof.
  intros m m' v r h N. induction h as [|e h IH]; simpl; auto.
  unfold entry in *. destruct (caseeq (le_mask e) m) eqn:E; simpl.
  - assert (F : caseeq (le_mask e) m' = false).
    { destruct (caseeq (le_mask e) m') eqn:F; auto. rewrite caseeq_sym in E.
      rewrite (caseeq_trans _ _ _ E F) in N. discriminate. }
    rewrite F. reflexivity.
  - destruct (caseeq (le_mask e) m'); auto.
Qed.

Lemma entry_upd_first_same : forall m v r h e, entry h m = Some e ->
  entry (upd_first m v r h) m =
    Some (mkLelem (le_mask e) (match r with Some _ => r | None => le_reason e end) v (le_once e)).
Proof.
  intros m v r h e. induction h as [|x h IH]; intro H; [discriminate|].
  unfold entry in *. simpl in *. destruct (caseeq (le_mask x) m) eqn:E; simpl.
  - inversion H; subst. rewrite E. reflexivity.
  - rewrite E. apply IH. exact H.
Qed.

Lemma Lists_Add_entry : forall h m v r o, List.length m < MASK_LEN ->
  entry (Lists_Add h m v r o) m =
    Some match entry h m with
         | None => mkLelem m r v o
         | Some e => mkLelem (le_mask e) (match r with Some _ => r | None => le_reason e end) v (le_once e)
         end.
Proof.
  intros h m v r o L. unfold Lists_Add, Lists_CheckDupeMask.
  change (find (fun e => caseeq (le_mask e) m) h) with (entry h m).
  destruct (entry h m) eqn:E.
  - apply entry_upd_first_same; auto.
  - rewrite strlcpy_short by auto. unfold entry. simpl. rewrite caseeq_refl. reflexivity.
Qed.

Lemma Lists_Add_other : forall h m m' v r o, List.length m < MASK_LEN -> caseeq m m' = false ->
  entry (Lists_Add h m v r o) m' = entry h m'.
Proof.
  intros h m m' v r o L N. unfold Lists_Add, Lists_CheckDupeMask.
  change (find (fun e => caseeq (le_mask e) m) h) with (entry h m).
  destruct (entry h m) eqn:E.
  - apply entry_upd_first_other; auto.
  - rewrite strlcpy_short by auto. unfold entry. simpl. rewrite N. reflexivity.
Qed.

Lemma entry_filter : forall p h m, (forall e, In e h -> caseeq (le_mask e) m = true -> p e = true) ->
  entry (filter p h) m = entry h m.
Proof.
  intros p h m. induction h as [|e h IH]; intro H; simpl; auto.
  unfold entry in *. destruct (p e) eqn:E; simpl.
  - destruct (caseeq (le_mask e) m); auto. apply IH. intros; apply H; simpl; auto.
  - destruct (caseeq (le_mask e) m) eqn:F.
    + rewrite (H e) in E; simpl; auto. discriminate.
    + apply IH. intros; apply H; simpl; auto.
Qed.

Lemma Lists_Del_entry : forall h m m',
  entry (Lists_Del h m) m' = if caseeq m m' then None else entry h m'.
Proof.
  intros h m m'. rewrite Lists_Del_filter. destruct (caseeq m m') eqn:E.
  - apply entry_None. intro X. apply in_map_iff in X. destruct X as [e [E1 X]]. apply filter_In in X.
    destruct X as [_ X]. apply negb_true_iff in X. apply caseeq_iff in E.
    assert (caseeq (le_mask e) m = true) by (apply caseeq_iff; congruence). congruence.
  - apply entry_filter. intros e _ F. apply negb_true_iff.
    destruct (caseeq (le_mask e) m) eqn:G; auto. rewrite caseeq_sym in G.
    rewrite (caseeq_trans _ _ _ G F) in E. discriminate.
Qed.

Lemma Lists_Expire_entry : forall now h m, list_ok h ->
  entry (fst (Lists_Expire now h)) m =
    match entry h m with
    | Some e => if le_expired now e then None else Some e
    | None => None
    end.
Proof.
  intros now h m [ND _]. rewrite (proj1 (Lists_Expire_filter now h)).
  change (fun e => negb ((0 <? le_valid e) && (le_valid e <? now))%Z) with (fun e => negb (le_expired now e)).
  induction h as [|e h IH]; simpl; auto.
  simpl in ND. inversion ND; subst. unfold entry in *. simpl.
  destruct (caseeq (le_mask e) m) eqn:F.
  - destruct (le_expired now e) eqn:X; simpl.
    + rewrite IH by auto. assert (N : find (fun e0 => caseeq (le_mask e0) m) h = None).
      { apply (proj2 (entry_None h m)). apply caseeq_iff in F. rewrite <- F. auto. }
      rewrite N. reflexivity.
    + rewrite F. reflexivity.
  - destruct (le_expired now e) eqn:X; simpl; auto. rewrite F. auto.
Qed.

(** Checking. *)
Lemma Lists_Check_listed : forall h c r, fst (Lists_Check h c r) = existsb (fun e => le_match e c r) h.
Proof.
  intros h c r. unfold Lists_Check. induction h as [|e h IH]; simpl; auto.
  destruct (le_match e c r); simpl; auto.
  destruct (Lists_CheckReason h c r) as [res h'] eqn:E. simpl in *. exact IH.
Qed.

Lemma Lists_CheckReason_first : forall h c r,
  fst (Lists_CheckReason h c r) = match find (fun e => le_match e c r) h with
                                  | Some e => Some (le_reason e) | None => None end.
Proof.
  induction h as [|e h IH]; intros c r; simpl; auto.
  destruct (le_match e c r); simpl; auto.
  destruct (Lists_CheckReason h c r) as [res h'] eqn:E. simpl. rewrite <- IH, E. reflexivity.
Qed.

(** The entry used by a check: the first matching one; it disappears iff it is one-shot,
    everything else stays, in order. *)
Lemma Lists_Check_after : forall h c r,
  (forall e, find (fun e => le_match e c r) h = Some e -> le_once e = true ->
     exists h1 h2, h = h1 ++ e :: h2 /\ snd (Lists_Check h c r) = h1 ++ h2) /\
  (forall e, find (fun e => le_match e c r) h = Some e -> le_once e = false -> snd (Lists_Check h c r) = h) /\
  (find (fun e => le_match e c r) h = None -> snd (Lists_Check h c r) = h).
Proof.
  intros h c r. unfold Lists_Check. destruct (Lists_CheckReason h c r) as [res hh] eqn:E0. simpl.
  assert (X : snd (Lists_CheckReason h c r) = hh) by (rewrite E0; auto). clear E0 res. subst hh.
  induction h as [|e h IH]; simpl.
  - repeat split; intros; try discriminate; auto.
  - destruct (le_match e c r) eqn:E; simpl.
    + repeat split.
      * intros x Hx O. inversion Hx; subst. rewrite O. exists [], h. auto.
      * intros x Hx O. inversion Hx; subst. rewrite O. auto.
      * discriminate.
    + destruct (Lists_CheckReason h c r) as [res h'] eqn:E2. simpl in *. destruct IH as [I1 [I2 I3]].
      repeat split.
      * intros x Hx O. destruct (I1 x Hx O) as [h1 [h2 [A A2]]]. exists (e :: h1), h2. subst. auto.
      * intros x Hx O. f_equal. eauto.
      * intro Hx. f_equal. auto.
Qed.

(** ---- Lists_MakeMask ---- *)

(** A complete mask nick!user@host. *)
Definition full_mask (m : bytes) : Prop :=
  exists n u h, m = n ++ "!"%char :: u ++ "@"%char :: h /\ ~ In "!"%char n /\ ~ In "@"%char n /\ ~ In "@"%char u.

Lemma strchr_spec : forall c s, match strchr c s with
  | None => ~ In c s
  | Some (p, f) => s = p ++ f /\ ~ In c p /\ exists t, f = c :: t
  end.
Proof.
  intros c s. induction s as [|x s IH]; simpl; auto.
  destruct (Ascii.eqb_spec x c) as [E|E].
  - subst. repeat split; auto. eauto.
  - destruct (strchr c s) as [[p f]|] eqn:Q.
    + destruct IH as [I1 [I2 [t I3]]]. subst. repeat split; eauto. intros [X|X]; auto.
    + intros [X|X]; auto.
Qed.

Lemma strchr_app : forall c p t, ~ In c p -> strchr c (p ++ c :: t) = Some (p, c :: t).
Proof.
  intros c p t H. induction p as [|x p IH]; simpl.
  - rewrite Ascii.eqb_refl. reflexivity.
  - destruct (Ascii.eqb_spec x c) as [E|E]; [exfalso; apply H; left; auto|].
    rewrite IH; auto. intro X. apply H. right. auto.
Qed.

Lemma strchr_none : forall c s, ~ In c s -> strchr c s = None.
Proof.
  intros c s H. pose proof (strchr_spec c s) as S. destruct (strchr c s) as [[p f]|]; auto.
  destruct S as [S1 [S2 [t S3]]]. subst. exfalso. apply H. apply in_or_app. right. left. auto.
Qed.

Lemma MakeMask_length : forall p, List.length (Lists_MakeMask p MASK_LEN) < MASK_LEN.
Proof.
  intro p. unfold Lists_MakeMask.
  assert (C1 : forall a b, List.length a <= 127 -> List.length (strlcat MASK_LEN a b) < MASK_LEN).
  { intros a b H. pose proof (strlcat_length MASK_LEN a b H). unfold MASK_LEN in *. lia. }
  assert (C2 : forall n a, 0 < n <= MASK_LEN -> List.length (strlcpy n a) <= 127).
  { intros n a H. pose proof (strlcpy_length n a ltac:(lia)). unfold MASK_LEN in *. lia. }
  assert (C3 : forall a b, List.length a <= 127 -> List.length (strlcat MASK_LEN a b) <= 127).
  { intros a b H. pose proof (C1 a b H). unfold MASK_LEN in *. lia. }
  destruct (strchr "@" p) as [[pa fa]|]; destruct (strchr "!" p) as [[pe fe]|];
    try destruct (_ <? _); repeat (apply C1 || apply C3); try (apply C2; unfold MASK_LEN; lia).
  - pose proof (C2 MASK_LEN p ltac:(unfold MASK_LEN; lia)). unfold MASK_LEN in *. lia.
Qed.

(** What the result looks like, for everything a mask buffer can hold. *)
Lemma MakeMask_nick : forall n, ~ In "!"%char n -> ~ In "@"%char n -> List.length n <= 122 ->
  Lists_MakeMask n MASK_LEN = n ++ B "!*@*".
Proof.
  intros n H1 H2 L. unfold Lists_MakeMask. rewrite (strchr_none _ _ H1), (strchr_none _ _ H2).
  rewrite strlcpy_short by (unfold MASK_LEN; lia).
  rewrite strlcat_is_firstn by (unfold MASK_LEN; lia).
  apply firstn_all2. rewrite app_length. unfold MASK_LEN. simpl. lia.
Qed.

Lemma MakeMask_nick_user : forall n u, ~ In "!"%char n -> ~ In "@"%char n -> ~ In "@"%char u ->
  List.length n + List.length u <= 123 ->
  Lists_MakeMask (n ++ "!"%char :: u) MASK_LEN = n ++ "!"%char :: u ++ B "@*".
Proof.
  intros n u H1 H2 H3 L. unfold Lists_MakeMask. rewrite (strchr_app _ _ _ H1).
  rewrite strchr_none.
  2:{ intro X. apply in_app_or in X. destruct X as [X|[X|X]]; auto. discriminate. }
  rewrite strlcpy_short by (unfold MASK_LEN; rewrite app_length; simpl; lia).
  rewrite strlcat_is_firstn by (unfold MASK_LEN; rewrite ?app_length; simpl; lia).
  rewrite firstn_all2; [rewrite <- app_assoc; reflexivity|].
  rewrite !app_length. unfold MASK_LEN. cbn [List.length B list_ascii_of_string]. lia.
Qed.

Lemma MakeMask_user_host : forall u h, ~ In "!"%char u -> ~ In "@"%char u ->
  List.length u + List.length h <= 124 -> List.length u <= 122 ->
  Lists_MakeMask (u ++ "@"%char :: h) MASK_LEN = u ++ B "!*@" ++ h.
Proof.
  intros u h H1 H2 L L2. unfold Lists_MakeMask. rewrite (strchr_app _ _ _ H2).
  assert (R : forall X, 
    strlcat MASK_LEN (strlcat MASK_LEN (strlcpy (MASK_LEN - 5) u) (B "!*@")) (tl ("@"%char :: h)) = X ->
    u ++ B "!*@" ++ h = X).
  { intros X E. rewrite <- E. rewrite strlcpy_short by (unfold MASK_LEN; lia).
    rewrite (strlcat_is_firstn MASK_LEN u) by (unfold MASK_LEN; lia).
    rewrite (@firstn_all2 _ _ (u ++ B "!*@")) by (rewrite app_length; unfold MASK_LEN; simpl; lia).
    rewrite strlcat_is_firstn by (rewrite ?app_length; unfold MASK_LEN; simpl; lia).
    simpl tl. rewrite firstn_all2; [rewrite app_assoc; reflexivity|].
    rewrite !app_length. unfold MASK_LEN. simpl. lia. }
  pose proof (strchr_spec "!" (u ++ "@"%char :: h)) as S.
  destruct (strchr "!" (u ++ "@"%char :: h)) as [[pe fe]|].
  - destruct S as [S1 [S2 [t S3]]]. subst fe.
    assert (Lt : (List.length u <? List.length pe) = true).
    { apply Nat.ltb_lt. destruct (Nat.le_gt_cases (List.length pe) (List.length u)); auto. exfalso.
      assert (F : nth_error (u ++ "@"%char :: h) (List.length pe) = Some "!"%char).
      { rewrite S1. rewrite nth_error_app2 by lia. rewrite Nat.sub_diag. reflexivity. }
      destruct (Nat.eq_dec (List.length pe) (List.length u)) as [Eq|Ne].
      - rewrite Eq in F. rewrite nth_error_app2 in F by lia. rewrite Nat.sub_diag in F. discriminate.
      - rewrite nth_error_app1 in F by lia. apply nth_error_In in F. auto. }
    rewrite Lt. symmetry. apply R. reflexivity.
  - symmetry. apply R. reflexivity.
Qed.

Lemma MakeMask_full : forall m, full_mask m -> List.length m < MASK_LEN -> Lists_MakeMask m MASK_LEN = m.
Proof.
  intros m [n [u [h [E [H1 [H2 H3]]]]]] L. unfold Lists_MakeMask. 
  assert (A : strchr "!" m = Some (n, "!"%char :: u ++ "@"%char :: h)) by (rewrite E; apply strchr_app; auto).
  assert (A2 : strchr "@" m = Some (n ++ "!"%char :: u, "@"%char :: h)).
  { rewrite E. replace (n ++ "!"%char :: u ++ "@"%char :: h) with ((n ++ "!"%char :: u) ++ "@"%char :: h) by (rewrite <- app_assoc; reflexivity).
    apply strchr_app. intro X. apply in_app_or in X. destruct X as [X|[X|X]]; auto. discriminate. }
  rewrite A, A2. assert (F : (List.length (n ++ "!"%char :: u) <? List.length n) = false).
  { apply Nat.ltb_ge. rewrite app_length. lia. }
  rewrite F. apply strlcpy_short. auto.
Qed.

Lemma full_intro : forall n u h, ~ In "!"%char n -> ~ In "@"%char n -> ~ In "@"%char u ->
  full_mask (n ++ "!"%char :: u ++ "@"%char :: h).
Proof. intros n u h H1 H2 H3. exists n, u, h. auto. Qed.

(** Up to 122 bytes of input every result is a complete mask. *)
Lemma MakeMask_complete : forall p, List.length p <= 122 -> full_mask (Lists_MakeMask p MASK_LEN).
Proof.
  intros p L. pose proof (strchr_spec "@" p) as SA. pose proof (strchr_spec "!" p) as SE.
  destruct (strchr "@" p) as [[pa fa]|] eqn:EA.
  - destruct SA as [A1 [A2 [h A3]]]. subst fa.
    destruct (strchr "!" pa) as [[n f]|] eqn:EE.
    + pose proof (strchr_spec "!" pa) as S2. rewrite EE in S2. destruct S2 as [B1 [B2 [u B3]]]. subst f.
      assert (F : full_mask p).
      { rewrite A1, B1. rewrite <- app_assoc. simpl. apply full_intro; auto; intro X; apply A2; rewrite B1; apply in_or_app; simpl; auto. }
      rewrite MakeMask_full; auto. unfold MASK_LEN; lia.
    + pose proof (strchr_spec "!" pa) as S2. rewrite EE in S2.
      rewrite A1.
      assert (LL : List.length pa + S (List.length h) <= 122) by (rewrite A1, app_length in L; simpl in L; lia).
      rewrite MakeMask_user_host; auto; try lia.
      change (pa ++ B "!*@" ++ h) with (pa ++ "!"%char :: ["*"%char] ++ "@"%char :: h).
      apply full_intro; auto. intros [X|[]]; discriminate.
  - destruct (strchr "!" p) as [[n f]|] eqn:EE.
    + destruct SE as [B1 [B2 [u B3]]]. subst f. 
      assert (LL : List.length n + S (List.length u) <= 122) by (rewrite B1, app_length in L; simpl in L; lia).
      rewrite B1. rewrite MakeMask_nick_user; auto; try lia.
      * apply full_intro; auto; intro X; apply SA; rewrite B1; apply in_or_app; simpl; auto.
      * intro X. apply SA. rewrite B1. apply in_or_app; simpl; auto.
      * intro X. apply SA. rewrite B1. apply in_or_app; simpl; auto.
    + rewrite MakeMask_nick; auto.
      change (p ++ B "!*@*") with (p ++ "!"%char :: ["*"%char] ++ "@"%char :: ["*"%char]).
      apply full_intro; auto. intros [X|[]]; discriminate.
Qed.

Lemma MakeMask_idempotent : forall p, List.length p <= 122 ->
  Lists_MakeMask (Lists_MakeMask p MASK_LEN) MASK_LEN = Lists_MakeMask p MASK_LEN.
Proof. intros p L. apply MakeMask_full; [apply MakeMask_complete; auto|apply MakeMask_length]. Qed.

(** Long masks lose their '!' or '@'. *)
Lemma MakeMask_long_bad : exists p, List.length p = 125 /\ ~ full_mask (Lists_MakeMask p MASK_LEN).
Proof.
  exists (repeat "a"%char 124 ++ B "!"). split; [reflexivity|].
  intros [n [u [h [E _]]]].
  assert (In "!"%char (Lists_MakeMask (repeat "a"%char 124 ++ B "!") MASK_LEN)).
  { rewrite E. apply in_or_app. right. left. reflexivity. }
  apply memb_In in H. vm_compute in H. discriminate.
Qed.
