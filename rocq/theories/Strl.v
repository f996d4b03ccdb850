(** Memory-level model of src/portab/strlcpy.c: buffers are byte arrays, writing outside
    of a buffer is a distinct outcome ([None]). *)
From Coq Require Import List Ascii String NArith Lia Bool Arith.
From Verif Require Import Bytes.
Import ListNotations.

(** The C string stored in a buffer: the bytes in front of the first NUL; [None] when the
    buffer holds no NUL (strlen(3) would read past its end). *)
Fixpoint cstr (buf : bytes) : option bytes :=
  match buf with
  | [] => None
  | c :: r => if Ascii.eqb c NUL then Some []
              else match cstr r with Some s => Some (c :: s) | None => None end
  end.

(** buf[i] = c *)
Fixpoint put (buf : bytes) (i : nat) (c : ascii) : option bytes :=
  match buf, i with
  | [], _ => None
  | _ :: r, O => Some (c :: r)
  | x :: r, S i' => match put r i' c with Some r' => Some (x :: r') | None => None end
  end.

(** memcpy(buf + i, src, n) with src readable for n bytes. *)
Fixpoint memcpy (buf : bytes) (i : nat) (src : bytes) : option bytes :=
  match src with
  | [] => Some buf
  | c :: r => match put buf i c with Some b => memcpy b (S i) r | None => None end
  end.

(** src/portab/strlcpy.c:53-68 strlcpy: returned length and buffer afterwards. *)
Definition strlcpy_mem (dst src : bytes) (size : nat) : option (nat * bytes) :=
  match cstr src with
  | None => None
  | Some s =>
    let len := List.length s in
    if 0 <? size then
      let l := if size <=? len then size - 1 else len in
      match memcpy dst 0 (firstn l s) with
      | Some d => match put d l NUL with Some d' => Some (len, d') | None => None end
      | None => None
      end
    else Some (len, dst)
  end.

(** src/portab/strlcpy.c:30-47 strlcat: returned length and buffer afterwards. *)
Definition strlcat_mem (dst src : bytes) (size : nat) : option (nat * bytes) :=
  match cstr dst, cstr src with
  | Some d, Some s =>
    let len1 := List.length d in
    let len2 := List.length s in
    if (0 <? size) && (len1 <? size - 1) then
      let l := if size - len1 <=? len2 then size - len1 - 1 else len2 in
      match memcpy dst len1 (firstn l s) with
      | Some b => match put b (len1 + l) NUL with Some b' => Some (len1 + len2, b') | None => None end
      | None => None
      end
    else Some (len1 + len2, dst)
  | _, _ => None
  end.

(** ---- proofs ---- *)
Lemma put_spec : forall buf i c, i < List.length buf ->
  put buf i c = Some (firstn i buf ++ c :: skipn (S i) buf).
Proof.
  induction buf as [|x r IH]; intros i c H; simpl in H; [lia|].
  destruct i as [|i]; simpl; [reflexivity|]. rewrite IH by lia. reflexivity.
Qed.

Lemma memcpy_spec : forall src buf i, i + List.length src <= List.length buf ->
  memcpy buf i src = Some (firstn i buf ++ src ++ skipn (i + List.length src) buf).
Proof.
  induction src as [|c r IH]; intros buf i H; cbn [memcpy List.length] in *.
  - rewrite Nat.add_0_r. simpl. rewrite firstn_skipn. reflexivity.
  - rewrite put_spec by lia. rewrite IH.
    + f_equal.
      assert (L : List.length (firstn i buf) = i) by (rewrite firstn_length; lia).
      replace (firstn (S i) (firstn i buf ++ c :: skipn (S i) buf)) with (firstn i buf ++ [c]).
      2:{ rewrite firstn_app. rewrite L. rewrite (@firstn_all2 _ (S i)) by lia.
          replace (S i - i) with 1 by lia. reflexivity. }
      replace (skipn (S i + List.length r) (firstn i buf ++ c :: skipn (S i) buf))
        with (skipn (i + S (List.length r)) buf).
      2:{ rewrite skipn_app. rewrite L. rewrite (@skipn_all2 _ (S i + _)) by lia. rewrite app_nil_l.
          replace (S i + List.length r - i) with (S (List.length r)) by lia.
          rewrite skipn_cons, skipn_skipn. f_equal. lia. }
      rewrite <- app_assoc. reflexivity.
    + rewrite app_length, firstn_length. cbn [List.length]. rewrite skipn_length. lia.
Qed.

Lemma cstr_app : forall s r, ~ In NUL s -> cstr (s ++ NUL :: r) = Some s.
Proof.
  induction s as [|c s IH]; intros r H; simpl.
  - reflexivity.
  - destruct (Ascii.eqb_spec c NUL) as [E|E].
    + exfalso. apply H. left. auto.
    + rewrite IH; auto. intro X. apply H. right. auto.
Qed.

Lemma cstr_inv : forall b s, cstr b = Some s -> ~ In NUL s /\ exists r, b = s ++ NUL :: r.
Proof.
  induction b as [|c b IH]; intros s H; simpl in H; [discriminate|].
  destruct (Ascii.eqb_spec c NUL) as [E|E].
  - inversion H; subst. split; auto. exists b. reflexivity.
  - destruct (cstr b) as [s'|] eqn:Eb; [|discriminate]. inversion H; subst.
    destruct (IH s' eq_refl) as [N [r Er]]. subst b. split.
    + intros [X|X]; auto.
    + exists r. reflexivity.
Qed.

Lemma strlcpy_mem_ok : forall dst src s size,
  cstr src = Some s -> 0 < size -> size <= List.length dst ->
  exists dst', strlcpy_mem dst src size = Some (List.length s, dst')
    /\ List.length dst' = List.length dst
    /\ cstr dst' = Some (firstn (size - 1) s)
    /\ skipn size dst' = skipn size dst.
Proof.
  intros dst src s size Hs Hsz Hd. unfold strlcpy_mem. rewrite Hs.
  assert (E0 : (0 <? size) = true) by (apply Nat.ltb_lt; lia). rewrite E0.
  set (l := if size <=? List.length s then size - 1 else List.length s).
  assert (Hl : l < size /\ l <= List.length s /\ firstn l s = firstn (size - 1) s).
  { unfold l. destruct (Nat.leb_spec size (List.length s)); repeat split; try lia.
    rewrite !firstn_all2 by lia. reflexivity. }
  destruct Hl as [H1 [H2 H3]].
  assert (Lf : List.length (firstn l s) = l) by (rewrite firstn_length; lia).
  rewrite memcpy_spec by (rewrite Lf; lia).
  rewrite Lf. cbn [firstn app Nat.add].
  rewrite put_spec by (rewrite app_length, Lf, skipn_length; lia).
  eexists. split; [reflexivity|].
  rewrite firstn_app, Lf, Nat.sub_diag. simpl (firstn 0 _). rewrite app_nil_r.
  rewrite (@firstn_all2 _ l (firstn l s)) by lia.
  rewrite skipn_app, Lf. rewrite (@skipn_all2 _ (S l) (firstn l s)) by lia. rewrite app_nil_l.
  replace (S l - l) with 1 by lia. rewrite skipn_skipn.
  assert (K: NUL :: [] ++ skipn (1 + l) dst = NUL :: skipn (1 + l) dst) by reflexivity.
  repeat split.
  - rewrite app_length, Lf. cbn [List.length app]. rewrite skipn_length. lia.
  - rewrite H3. rewrite cstr_app; auto. destruct (cstr_inv _ _ Hs) as [N _].
    intro X. apply N. rewrite <- (firstn_skipn (size-1) s). apply in_or_app. auto.
  - rewrite skipn_app, Lf. rewrite (@skipn_all2 _ size (firstn l s)) by lia. rewrite app_nil_l.
    destruct (size - l) as [|k] eqn:Ek; [lia|]. rewrite skipn_cons. cbn [app]. rewrite skipn_skipn. f_equal. lia.
Qed.

Lemma strlcat_mem_ok : forall dst src d s size,
  cstr dst = Some d -> cstr src = Some s -> List.length d < size -> size <= List.length dst ->
  exists dst', strlcat_mem dst src size = Some (List.length d + List.length s, dst')
    /\ List.length dst' = List.length dst
    /\ cstr dst' = Some (firstn (size - 1) (d ++ s))
    /\ skipn size dst' = skipn size dst.
Proof.
  intros dst src d s size Hd Hs Hsz Hlen. unfold strlcat_mem. rewrite Hd, Hs.
  assert (E0 : (0 <? size) = true) by (apply Nat.ltb_lt; lia). rewrite E0. simpl andb.
  destruct (cstr_inv _ _ Hd) as [Nd [rd Ed]]. destruct (cstr_inv _ _ Hs) as [Ns _].
  destruct (Nat.ltb_spec (List.length d) (size - 1)) as [Hlt|Hge].
  - set (l := if size - List.length d <=? List.length s then size - List.length d - 1 else List.length s).
    assert (Hl : List.length d + l < size /\ l <= List.length s /\ d ++ firstn l s = firstn (size - 1) (d ++ s)).
    { rewrite firstn_app. rewrite (@firstn_all2 _ (size - 1) d) by lia.
      unfold l. destruct (Nat.leb_spec (size - List.length d) (List.length s)); repeat split; try lia.
      - f_equal. f_equal. lia.
      - rewrite !firstn_all2 by lia. reflexivity. }
    destruct Hl as [H1 [H2 H3]].
    assert (Lf : List.length (firstn l s) = l) by (rewrite firstn_length; lia).
    rewrite memcpy_spec by (rewrite Lf; lia). rewrite Lf.
    assert (Fd : firstn (List.length d) dst = d).
    { rewrite Ed. rewrite firstn_app, Nat.sub_diag. simpl. rewrite app_nil_r. apply firstn_all. }
    rewrite Fd.
    assert (La : List.length (d ++ firstn l s) = List.length d + l) by (rewrite app_length; lia).
    rewrite app_assoc.
    rewrite put_spec by (rewrite app_length, La, skipn_length; lia).
    eexists. split; [reflexivity|].
    rewrite firstn_app, La, Nat.sub_diag. simpl (firstn 0 _). rewrite app_nil_r.
    rewrite (@firstn_all2 _ _ (d ++ firstn l s)) by lia.
    rewrite skipn_app, La. rewrite (@skipn_all2 _ (S _) (d ++ firstn l s)) by lia.
    replace (S (List.length d + l) - (List.length d + l)) with 1 by lia.
    rewrite skipn_skipn. rewrite app_nil_l.
    repeat split.
    + rewrite app_length, La. cbn [List.length]. rewrite skipn_length. lia.
    + rewrite H3. rewrite cstr_app; auto. intro X.
      assert (Y : In NUL (d ++ s)) by (rewrite <- (firstn_skipn (size-1) (d ++ s)); apply in_or_app; auto).
      apply in_app_or in Y. destruct Y; auto.
    + rewrite skipn_app, La. rewrite (@skipn_all2 _ size (d ++ firstn l s)) by lia. rewrite app_nil_l.
      destruct (size - (List.length d + l)) as [|k] eqn:Ek; [lia|]. rewrite skipn_cons.
      rewrite skipn_skipn. f_equal. lia.
  - exists dst. repeat split; auto. rewrite Hd. f_equal.
    rewrite firstn_app. replace (size - 1 - List.length d) with 0 by lia. simpl.
    rewrite app_nil_r. symmetry. apply firstn_all2. lia.
Qed.

(** The list-level functions used everywhere else in the model are what the memory-level
    functions compute. *)
Lemma strlcpy_refines : forall dst src s size n dst',
  cstr src = Some s -> 0 < size -> size <= List.length dst ->
  strlcpy_mem dst src size = Some (n, dst') -> cstr dst' = Some (strlcpy size s).
Proof.
  intros dst src s size n dst' Hs H0 Hl H.
  destruct (strlcpy_mem_ok dst src s size Hs H0 Hl) as [d2 [E [_ [E2 _]]]].
  rewrite E in H. inversion H; subst. rewrite E2. rewrite strlcpy_is_firstn by lia. reflexivity.
Qed.

Lemma strlcat_refines : forall dst src d s size n dst',
  cstr dst = Some d -> cstr src = Some s -> List.length d < size -> size <= List.length dst ->
  strlcat_mem dst src size = Some (n, dst') -> cstr dst' = Some (strlcat size d s).
Proof.
  intros dst src d s size n dst' Hd Hs H0 Hl H.
  destruct (strlcat_mem_ok dst src d s size Hd Hs H0 Hl) as [d2 [E [_ [E2 _]]]].
  rewrite E in H. inversion H; subst. rewrite E2. rewrite strlcat_is_firstn by lia. reflexivity.
Qed.
