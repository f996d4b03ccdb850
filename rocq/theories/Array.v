(** Model of src/ngircd/array.c: dynamic arrays.  [size_t] is modelled as N modulo 2^64;
    realloc(3) failing is an input of every operation that may call it; accesses outside of
    the allocated block and failing assertions are the distinct outcome [UB]. *)
From Coq Require Import List Ascii String NArith Lia Bool Arith.
From Verif Require Import Bytes.
Import ListNotations.
Local Open Scope N_scope.

Definition SIZE : N := 18446744073709551616.   (* 2^64 *)
Definition add64 (a b : N) : N := (a + b) mod SIZE.
Definition mul64 (a b : N) : N := (a * b) mod SIZE.

(** src/ngircd/array.h:22-26 *)
Record array := mkArray { a_mem : option bytes; a_alloc : N; a_used : N }.

Inductive out (A : Type) := UB | Res (x : A).
Arguments UB {A}. Arguments Res {A} x.

(** src/ngircd/array.c:34-44 safemult_sizet *)
Definition safemult (a b : N) : option N :=
  let tmp := mul64 a b in
  if negb (b =? 0) && negb (tmp / b =? a) then None else Some tmp.

(** src/ngircd/array.c:47-54 array_init, and 247-260 array_free *)
Definition array_init : array := mkArray None 0 0.
Definition array_free (a : array) : array := mkArray None 0 0.

Definition zeros (n : N) : bytes := repeat NUL (N.to_nat n).
Definition take (n : N) (l : bytes) : bytes := firstn (N.to_nat n) l.
Definition drop (n : N) (l : bytes) : bytes := skipn (N.to_nat n) l.
Definition len (l : bytes) : N := N.of_nat (List.length l).

(** Content of the memory block, empty when unallocated. *)
Definition mem0 (a : array) : bytes := match a_mem a with Some m => m | None => [] end.

(** src/ngircd/array.c:58-87 array_alloc: the array afterwards and the offset of the
    returned pointer ([None] = NULL).  [ok]: does realloc(3) succeed?  realloc keeps the old
    content, lines 80: everything from [used] on is cleared. *)
Definition array_alloc (ok : bool) (a : array) (size pos : N) : out (array * option N) :=
  if size =? 0 then UB else
  let pos_plus1 := add64 pos 1 in
  if pos_plus1 =? 0 then Res (a, None) else
  match safemult size pos_plus1 with
  | None => Res (a, None)
  | Some alloc =>
      if a_alloc a <? alloc then
        if ok then
          let m := take (a_used a) (mem0 a) ++ zeros (alloc - a_used a) in
          Res (mkArray (Some m) alloc alloc, Some (mul64 pos size))
        else Res (a, None)
      else if a_alloc a <? a_used a then UB
      else Res (a, Some (mul64 pos size))
  end.

(** src/ngircd/array.c:91-102 array_length *)
Definition array_length (a : array) (membersize : N) : out N :=
  if membersize =? 0 then UB else
  match a_mem a with
  | None => Res 0
  | Some _ => if a_alloc a =? 0 then UB else Res (a_used a / membersize)
  end.

(** memcpy(mem + at, src, len(src)) *)
Definition write_at (m : bytes) (at_ : N) (src : bytes) : out bytes :=
  if at_ + len src <=? len m then Res (take at_ m ++ src ++ drop (at_ + len src) m) else UB.

(** src/ngircd/array.c:142-179 array_catb with len = length of src (src <> NULL, and src does
    not point into dest) *)
Definition array_catb (ok : bool) (dest : array) (src : bytes) : out (array * bool) :=
  match src with
  | [] => Res (dest, true)
  | _ =>
    let used := a_used dest in
    let tmp := add64 used (len src) in
    if (tmp <? used) || (tmp <? len src) then Res (dest, false) else
    match array_alloc ok dest 1 tmp with
    | UB => UB
    | Res (d, None) => Res (d, false)
    | Res (d, Some _) =>
        match a_mem d with
        | None => UB
        | Some m => match write_at m used src with
                    | UB => UB
                    | Res m' => Res (mkArray (Some m') (a_alloc d) tmp, true)
                    end
        end
    end
  end.

(** src/ngircd/array.c:279-284 array_trunc *)
Definition array_trunc (a : array) : array := mkArray (a_mem a) (a_alloc a) 0.

(** src/ngircd/array.c:118-129 array_copyb *)
Definition array_copyb (ok : bool) (dest : array) (src : bytes) : out (array * bool) :=
  array_catb ok (array_trunc dest) src.

(** src/ngircd/array.c:191-195 array_cat0 *)
Definition array_cat0 (ok : bool) (a : array) : out (array * bool) := array_catb ok a [NUL].

(** src/ngircd/array.c:199-208 array_cat0_temporary *)
Definition array_cat0_temporary (ok : bool) (a : array) : out (array * bool) :=
  match array_alloc ok a 1 (a_used a) with
  | UB => UB
  | Res (d, None) => Res (d, false)
  | Res (d, Some endpos) =>
      match a_mem d with
      | None => UB
      | Some m => match write_at m endpos [NUL] with
                  | UB => UB
                  | Res m' => Res (mkArray (Some m') (a_alloc d) (a_used d), true)
                  end
      end
  end.

(** src/ngircd/array.c:210-218 array_cat (dest and src are different arrays) *)
Definition array_cat (ok : bool) (dest src : array) : out (array * bool) :=
  match a_mem src with
  | None => Res (dest, false)
  | Some m => if len m <? a_used src then UB else array_catb ok dest (take (a_used src) m)
  end.

(** src/ngircd/array.c:105-114 array_copy (dest and src are different arrays) *)
Definition array_copy (ok : bool) (dest src : array) : out (array * bool) :=
  match a_mem src with
  | None => Res (dest, false)
  | Some m => if a_alloc src =? 0 then UB else
              if len m <? a_used src then UB else array_copyb ok dest (take (a_used src) m)
  end.

(** src/ngircd/array.c:224-244 array_get: offset of the element *)
Definition array_get (a : array) (membersize pos : N) : out (option N) :=
  if membersize =? 0 then UB else
  let posplus1 := add64 pos 1 in
  match a_mem a with
  | None => Res None
  | Some _ =>
    if posplus1 =? 0 then Res None else
    match safemult posplus1 membersize with
    | None => Res None
    | Some total => if a_alloc a <? total then Res None else Res (Some (mul64 pos membersize))
    end
  end.

(** src/ngircd/array.c:287-297 array_truncate *)
Definition array_truncate (a : array) (membersize n : N) : array :=
  match safemult membersize n with
  | None => a
  | Some newlen => if newlen <=? a_alloc a then mkArray (a_mem a) (a_alloc a) newlen else a
  end.

(** src/ngircd/array.c:301-329 array_moveleft *)
Definition array_moveleft (a : array) (membersize pos : N) : out array :=
  if membersize =? 0 then UB else
  match safemult membersize pos with
  | None => Res (mkArray (a_mem a) (a_alloc a) 0)
  | Some bytepos =>
      if bytepos =? 0 then Res a else
      if a_used a <=? bytepos then Res (mkArray (a_mem a) (a_alloc a) 0) else
      let used' := a_used a - bytepos in
      match a_mem a with
      | None => UB
      | Some m =>
          if len m <? bytepos + used' then UB
          else Res (mkArray (Some (take used' (drop bytepos m) ++ drop used' m)) (a_alloc a) used')
      end
  end.

(** The documented invariant (src/ngircd/array.h:28-29). *)
Definition arr_ok (a : array) : Prop :=
  a_alloc a < SIZE /\ a_used a <= a_alloc a /\
  match a_mem a with
  | None => a_alloc a = 0
  | Some m => len m = a_alloc a /\ 0 < a_alloc a
  end.

(** The bytes a user of the array sees: the first [used] bytes of the block. *)
Definition content (a : array) : bytes := take (a_used a) (mem0 a).

(** ---- proofs ---- *)
Lemma safemult_spec : forall a b, a < SIZE -> b < SIZE ->
  safemult a b = if a * b <? SIZE then Some (a * b) else None.
Proof.
  intros a b Ha Hb. unfold safemult, mul64.
  assert (HS : SIZE <> 0) by (unfold SIZE; lia).
  destruct (N.ltb_spec (a * b) SIZE) as [H|H].
  - rewrite N.mod_small by lia.
    destruct (N.eqb_spec b 0) as [E|E]; simpl; [reflexivity|].
    rewrite N.div_mul by lia. rewrite N.eqb_refl. reflexivity.
  - destruct (N.eqb_spec b 0) as [E|E]; simpl.
    + subst. rewrite N.mul_0_r in H. unfold SIZE in H. lia.
    + destruct (N.eqb_spec ((a * b) mod SIZE / b) a) as [E2|E2]; simpl; [exfalso|reflexivity].
      assert (M : (a * b) mod SIZE < SIZE) by (apply N.mod_lt; auto).
      assert (D : a * b <= (a * b) mod SIZE).
      { rewrite <- E2 at 1. rewrite N.mul_comm. apply N.mul_div_le. lia. }
      lia.
Qed.

Lemma len_app : forall a b, len (a ++ b) = len a + len b.
Proof. intros. unfold len. rewrite app_length. lia. Qed.
Lemma len_zeros : forall n, len (zeros n) = n.
Proof. intros. unfold len, zeros. rewrite repeat_length. lia. Qed.
Lemma len_take : forall n l, n <= len l -> len (take n l) = n.
Proof. intros n l H. unfold len, take in *. rewrite firstn_length. lia. Qed.
Lemma len_drop : forall n l, len (drop n l) = len l - n.
Proof. intros n l. unfold len, drop. rewrite skipn_length. lia. Qed.
Lemma take_app_exact : forall n a b, len a = n -> take n (a ++ b) = a.
Proof.
  intros n a b H. unfold take, len in *. rewrite <- H. rewrite Nat2N.id.
  rewrite firstn_app, Nat.sub_diag, firstn_all. simpl. apply app_nil_r.
Qed.
Lemma take_all : forall n a, len a <= n -> take n a = a.
Proof. intros n a H. unfold take, len in *. apply firstn_all2. lia. Qed.
Lemma len_mem0 : forall a, arr_ok a -> len (mem0 a) = a_alloc a.
Proof.
  intros [m al u] [H1 [H2 H3]]; simpl in *. unfold mem0; simpl. destruct m; [tauto|]. subst. reflexivity.
Qed.

Lemma array_alloc_cases : forall ok a size pos, arr_ok a -> 0 < size < SIZE -> pos < SIZE ->
  array_alloc ok a size pos =
    if (pos + 1 <? SIZE) && (size * (pos + 1) <? SIZE) then
      if a_alloc a <? size * (pos + 1) then
        if ok then Res (mkArray (Some (content a ++ zeros (size * (pos + 1) - a_used a)))
                                (size * (pos + 1)) (size * (pos + 1)), Some (pos * size))
        else Res (a, None)
      else Res (a, Some (pos * size))
    else Res (a, None).
Proof.
  intros ok a size pos Ha Hs Hp. unfold array_alloc.
  destruct (N.eqb_spec size 0); [lia|].
  assert (HS : SIZE <> 0) by (unfold SIZE; lia).
  unfold add64. destruct (N.ltb_spec (pos + 1) SIZE) as [H|H]; simpl andb.
  - rewrite N.mod_small by lia. destruct (N.eqb_spec (pos + 1) 0); [lia|].
    rewrite safemult_spec by lia.
    destruct (N.ltb_spec (size * (pos + 1)) SIZE) as [H2|H2]; auto.
    unfold mul64. assert (pos * size <= size * (pos + 1)) by nia.
    rewrite N.mod_small by lia.
    destruct (N.ltb_spec (a_alloc a) (size * (pos + 1))).
    + destruct ok; reflexivity.
    + destruct Ha as [_ [Ha _]]. destruct (N.ltb_spec (a_alloc a) (a_used a)); [lia|reflexivity].
  - replace (pos + 1) with SIZE by lia. rewrite N.mod_same by auto. reflexivity.
Qed.

Lemma arr_ok_grow : forall a n, arr_ok a -> a_alloc a < n -> n < SIZE ->
  arr_ok (mkArray (Some (content a ++ zeros (n - a_used a))) n n).
Proof.
  intros a n H H1 H2. pose proof (len_mem0 _ H) as L. destruct H as [Ha [Hb _]].
  unfold arr_ok; simpl. repeat split; try lia.
  rewrite len_app, len_zeros. unfold content. rewrite len_take by lia. lia.
Qed.

Lemma array_alloc_ok : forall ok a size pos a' r, arr_ok a -> 0 < size < SIZE -> pos < SIZE ->
  array_alloc ok a size pos = Res (a', r) ->
  arr_ok a' /\ (forall off, r = Some off -> off = pos * size /\ off + size <= a_alloc a' /\ a_mem a' <> None).
Proof.
  intros ok a size pos a' r Ha Hs Hp H. rewrite array_alloc_cases in H by auto.
  destruct ((pos + 1 <? SIZE) && (size * (pos + 1) <? SIZE)) eqn:E.
  - apply andb_true_iff in E. destruct E as [E1 E2]. apply N.ltb_lt in E1, E2.
    destruct (N.ltb_spec (a_alloc a) (size * (pos + 1))) as [L|L].
    + destruct ok; inversion H; subst; clear H.
      * split; [apply arr_ok_grow; auto|]. intros off X. inversion X; subst. simpl.
        repeat split; try lia. discriminate.
      * split; auto. discriminate.
    + inversion H; subst. split; auto. intros off X. inversion X; subst. repeat split; try lia.
      destruct Ha as [_ [_ Ha]]. destruct (a_mem a'); [discriminate|]. nia.
  - inversion H; subst. split; auto. discriminate.
Qed.

Lemma write_at_ok : forall m at_ src, at_ + len src <= len m ->
  exists m', write_at m at_ src = Res m' /\ len m' = len m
    /\ take (at_ + len src) m' = take at_ m ++ src.
Proof.
  intros m at_ src H. unfold write_at. destruct (N.leb_spec (at_ + len src) (len m)); [|lia].
  eexists. split; [reflexivity|]. rewrite !len_app, len_drop, len_take by lia. split; [lia|].
  rewrite app_assoc. apply take_app_exact. rewrite len_app, len_take by lia. reflexivity.
Qed.

(** Appending: success means old content followed by the new bytes, failure (overflow or
    realloc) leaves the array alone; no undefined behaviour. *)
Lemma array_catb_correct : forall ok a src, arr_ok a -> len src < SIZE ->
  exists a' r, array_catb ok a src = Res (a', r) /\ arr_ok a' /\
    (r = true -> content a' = content a ++ src) /\
    (r = false -> a' = a) /\
    (r = false -> ok = false \/ SIZE <= a_used a + len src + 1) /\
    (r = true -> src <> [] -> a_used a' < a_alloc a').
Proof.
  intros ok a src Ha Hl. destruct src as [|c src]; [exists a, true; simpl|].
  { split; [reflexivity|]. split; [auto|]. split; [intros _; rewrite app_nil_r; reflexivity|].
    split; [discriminate|]. split; [discriminate|]. congruence. }
  set (s := c :: src) in *. unfold array_catb. unfold s at 1.
  assert (Hs : 0 < len s) by (unfold s, len; simpl; lia).
  pose proof Ha as [Ha1 [Ha2 Ha3]].
  assert (HS : SIZE <> 0) by (unfold SIZE; lia).
  destruct (N.ltb_spec (a_used a + len s) SIZE) as [Hov|Hov].
  - assert (E : add64 (a_used a) (len s) = a_used a + len s) by (unfold add64; apply N.mod_small; lia).
    rewrite E. destruct (N.ltb_spec (a_used a + len s) (a_used a)); [lia|].
    destruct (N.ltb_spec (a_used a + len s) (len s)); [lia|]. simpl orb. cbv iota.
    pose proof (len_mem0 _ Ha) as L0.
    rewrite array_alloc_cases by (auto; unfold SIZE; lia). rewrite !N.mul_1_l.
    destruct (N.ltb_spec (a_used a + len s + 1) SIZE) as [Hov2|Hov2]; simpl andb; cbv iota.
    + destruct (N.ltb_spec (a_alloc a) (a_used a + len s + 1)) as [G|G].
      * destruct ok.
        -- cbn [a_mem].
           pose proof (arr_ok_grow a (a_used a + len s + 1) Ha ltac:(lia) ltac:(lia)) as Hg.
           destruct Hg as [_ [_ [Lm _]]].
           destruct (write_at_ok (content a ++ zeros (a_used a + len s + 1 - a_used a)) (a_used a) s) as [m' [W1 [W2 W3]]].
           { rewrite Lm. simpl. lia. }
           rewrite W1. cbn [a_alloc]. exists (mkArray (Some m') (a_used a + len s + 1) (a_used a + len s)), true.
           split; [reflexivity|]. split; [|split; [|split; [|split]]]; try discriminate.
           ++ unfold arr_ok; simpl. simpl in Lm. repeat split; try lia.
           ++ intros _. unfold content at 1, mem0. simpl. rewrite W3. f_equal.
              apply take_app_exact. unfold content. rewrite len_take; lia.
           ++ simpl. intros. lia.
        -- exists a, false. split; [reflexivity|]. split; auto.
           repeat split; auto; try discriminate.
      * destruct (a_mem a) as [m|] eqn:Em; [|lia].
        destruct Ha3 as [Lm Hp].
        destruct (write_at_ok m (a_used a) s) as [m' [W1 [W2 W3]]]; [lia|].
        rewrite W1. exists (mkArray (Some m') (a_alloc a) (a_used a + len s)), true.
        split; [reflexivity|]. split; [|split; [|split; [|split]]]; try discriminate.
        -- unfold arr_ok; simpl. repeat split; lia.
        -- intros _. unfold content, mem0. simpl. rewrite W3, Em. reflexivity.
        -- simpl. intros. lia.
    + exists a, false. split; [reflexivity|]. split; auto. repeat split; auto; try discriminate.
  - assert (E : add64 (a_used a) (len s) = a_used a + len s - SIZE).
    { unfold add64. symmetry. apply N.mod_unique with 1; lia. }
    rewrite E. destruct (N.ltb_spec (a_used a + len s - SIZE) (a_used a)); [|lia]. simpl orb. cbv iota.
    exists a, false. split; [reflexivity|]. split; auto. repeat split; auto; try discriminate.
    intros _. right. lia.
Qed.

Lemma arr_ok_trunc : forall a, arr_ok a -> arr_ok (array_trunc a).
Proof. intros a [H1 [H2 H3]]. unfold arr_ok, array_trunc; simpl. repeat split; auto. lia. Qed.

Lemma array_copyb_correct : forall ok a src, arr_ok a -> len src < SIZE ->
  exists a' r, array_copyb ok a src = Res (a', r) /\ arr_ok a' /\
    (r = true -> content a' = src) /\ (r = false -> content a' = []).
Proof.
  intros ok a src Ha Hl. unfold array_copyb.
  destruct (array_catb_correct ok (array_trunc a) src (arr_ok_trunc _ Ha) Hl) as [a' [r [H1 [H2 [H3 [H4 _]]]]]].
  exists a', r. split; [exact H1|]. split; [exact H2|]. split.
  - intro X. rewrite (H3 X). reflexivity.
  - intro X. rewrite (H4 X). reflexivity.
Qed.

Lemma array_moveleft_correct : forall a ms pos, arr_ok a -> 0 < ms < SIZE -> pos < SIZE ->
  exists a', array_moveleft a ms pos = Res a' /\ arr_ok a' /\ content a' = drop (ms * pos) (content a).
Proof.
  intros a ms pos Ha Hm Hp. unfold array_moveleft. destruct (N.eqb_spec ms 0); [lia|].
  pose proof Ha as [H1 [H2 H3]]. pose proof (len_mem0 _ Ha) as L0.
  assert (Lc : len (content a) = a_used a) by (unfold content; apply len_take; lia).
  assert (DropAll : forall n, a_used a <= n -> drop n (content a) = []).
  { intros n0 Hn. unfold drop. apply skipn_all2. unfold len in Lc. lia. }
  rewrite safemult_spec by lia. destruct (N.ltb_spec (ms * pos) SIZE) as [L|L].
  - destruct (N.eqb_spec (ms * pos) 0) as [E|E].
    + exists a. rewrite E. repeat split; auto.
    + destruct (N.leb_spec (a_used a) (ms * pos)) as [U|U].
      * eexists. split; [reflexivity|]. rewrite DropAll by auto. split.
        -- unfold arr_ok; simpl. repeat split; auto. lia.
        -- reflexivity.
      * destruct (a_mem a) as [m|] eqn:Em; [|lia]. destruct H3 as [H3 H4].
        destruct (N.ltb_spec (len m) (ms * pos + (a_used a - ms * pos))); [lia|].
        eexists. split; [reflexivity|].
        assert (LD : len (take (a_used a - ms * pos) (drop (ms * pos) m)) = a_used a - ms * pos).
        { apply len_take. rewrite len_drop. lia. }
        split.
        -- unfold arr_ok; simpl. rewrite len_app, LD, len_drop. repeat split; lia.
        -- unfold content, mem0 at 1; simpl. rewrite take_app_exact by auto.
           unfold mem0. rewrite Em. unfold take, drop.
           rewrite skipn_firstn_comm. f_equal. lia.
  - eexists. split; [reflexivity|]. rewrite DropAll by lia. split.
    + unfold arr_ok; simpl. repeat split; auto. lia.
    + reflexivity.
Qed.

Lemma array_truncate_correct : forall a ms n, arr_ok a -> ms < SIZE -> n < SIZE ->
  arr_ok (array_truncate a ms n) /\
  (ms * n <= a_used a -> content (array_truncate a ms n) = take (ms * n) (content a)) /\
  (a_alloc a < ms * n -> array_truncate a ms n = a).
Proof.
  intros a ms n Ha Hm Hn. unfold array_truncate. rewrite safemult_spec by auto.
  pose proof Ha as [H1 [H2 H3]].
  destruct (N.ltb_spec (ms * n) SIZE) as [L|L].
  - destruct (N.leb_spec (ms * n) (a_alloc a)) as [G|G].
    + split; [|split].
      * unfold arr_ok; simpl. repeat split; auto.
      * intro X. unfold content, mem0; simpl. unfold take. rewrite firstn_firstn. f_equal. lia.
      * intro; lia.
    + split; [auto|]. split; [|reflexivity]. intro; lia.
  - split; [auto|]. split; [|reflexivity]. intro; lia.
Qed.

(** A returned element lies completely inside the allocated block. *)
Lemma array_get_inside : forall a ms pos, arr_ok a -> 0 < ms < SIZE -> pos < SIZE ->
  exists r, array_get a ms pos = Res r /\
    (forall off, r = Some off -> off = pos * ms /\ off + ms <= len (mem0 a)) /\
    ((pos + 1) * ms <= a_used a -> r = Some (pos * ms)).
Proof.
  intros a ms pos Ha Hm Hp. unfold array_get. destruct (N.eqb_spec ms 0); [lia|].
  pose proof (len_mem0 _ Ha) as L0. pose proof Ha as [H1 [H2 H3]].
  assert (HS : SIZE <> 0) by (unfold SIZE; lia).
  destruct (a_mem a) as [m|] eqn:Em.
  - unfold add64. destruct (N.ltb_spec (pos + 1) SIZE) as [H|H].
    + rewrite N.mod_small by lia. destruct (N.eqb_spec (pos + 1) 0); [lia|].
      rewrite safemult_spec by lia. destruct (N.ltb_spec ((pos + 1) * ms) SIZE) as [L|L].
      * destruct (N.ltb_spec (a_alloc a) ((pos + 1) * ms)).
        -- eexists. split; [reflexivity|]. split; [discriminate|]. intro; lia.
        -- eexists. split; [reflexivity|]. unfold mul64. rewrite N.mod_small by nia. split.
           ++ intros off X. inversion X; subst. split; [reflexivity|]. rewrite L0. nia.
           ++ reflexivity.
      * eexists. split; [reflexivity|]. split; [discriminate|]. intro; lia.
    + assert (EP : pos + 1 = SIZE) by lia.
      replace ((pos + 1) mod SIZE) with 0 by (rewrite EP, N.mod_same by auto; reflexivity). simpl N.eqb. cbv iota.
      eexists. split; [reflexivity|]. split; [discriminate|]. intro X.
      assert (X2 : SIZE * 1 <= (pos + 1) * ms) by (apply N.mul_le_mono; lia). lia.
  - eexists. split; [reflexivity|]. split; [discriminate|]. intro X. try rewrite Em in H3.
    assert (0 < (pos + 1) * ms) by nia. lia.
Qed.

Lemma array_length_correct : forall a ms, arr_ok a -> 0 < ms -> array_length a ms = Res (len (content a) / ms).
Proof.
  intros a ms Ha Hm. unfold array_length. destruct (N.eqb_spec ms 0); [lia|].
  pose proof (len_mem0 _ Ha) as L0. destruct Ha as [H1 [H2 H3]].
  unfold content. rewrite len_take by lia.
  destruct (a_mem a).
  - destruct (N.eqb_spec (a_alloc a) 0); [lia|reflexivity].
  - rewrite H3 in H2. replace (a_used a) with 0 by lia. rewrite N.div_0_l by lia. reflexivity.
Qed.

(** A temporary NUL leaves the content alone when there is room, which is always the case
    right after appending something. *)
Lemma array_cat0_temporary_correct : forall ok a, arr_ok a -> a_used a < a_alloc a ->
  exists a', array_cat0_temporary ok a = Res (a', true) /\ arr_ok a' /\ content a' = content a
    /\ take (a_used a + 1) (mem0 a') = content a ++ [NUL].
Proof.
  intros ok a Ha Hr. unfold array_cat0_temporary.
  pose proof Ha as [H1 [H2 H3]].
  rewrite array_alloc_cases by (auto; unfold SIZE in *; lia). rewrite !N.mul_1_l, N.mul_1_r.
  destruct (N.ltb_spec (a_used a + 1) SIZE) as [L|L]; [|unfold SIZE in *; lia]. simpl andb. cbv iota.
  destruct (N.ltb_spec (a_alloc a) (a_used a + 1)); [lia|].
  destruct (a_mem a) as [m|] eqn:Em; [|lia]. destruct H3 as [H3 H4].
  destruct (write_at_ok m (a_used a) [NUL]) as [m' [W1 [W2 W3]]]; [unfold len in *; simpl; lia|].
  rewrite W1. eexists. split; [reflexivity|].
  assert (C : content a = take (a_used a) m) by (unfold content, mem0; rewrite Em; reflexivity).
  assert (LC : len (take (a_used a) m) = a_used a) by (apply len_take; lia).
  assert (T : take (a_used a) m' = take (a_used a) m).
  { assert (X : take (a_used a) (take (a_used a + len [NUL]) m') = take (a_used a) m).
    { rewrite W3. apply take_app_exact. auto. }
    rewrite <- X. unfold take. rewrite firstn_firstn. f_equal. lia. }
  repeat split; simpl; try lia.
  - rewrite C. unfold content, mem0; simpl. apply T.
  - rewrite C. unfold mem0; simpl. apply W3.
Qed.

(** All sequences of operations on one array. *)
Inductive aop :=
| OAlloc (ok : bool) (size pos : N) | OCatb (ok : bool) (src : bytes) | OCopyb (ok : bool) (src : bytes)
| OCat0 (ok : bool) | OCat0Temp (ok : bool) | OTrunc | OTruncate (ms n : N) | OMoveleft (ms pos : N) | OFree.

Definition aop_valid (o : aop) : Prop :=
  match o with
  | OAlloc _ size pos => 0 < size < SIZE /\ pos < SIZE
  | OCatb _ src | OCopyb _ src => len src < SIZE
  | OTruncate ms n => ms < SIZE /\ n < SIZE
  | OMoveleft ms pos => 0 < ms < SIZE /\ pos < SIZE
  | _ => True
  end.

Definition aop_run (a : array) (o : aop) : out array :=
  let fst_ {A} (x : out (array * A)) := match x with UB => UB | Res (a', _) => Res a' end in
  match o with
  | OAlloc ok size pos => fst_ (array_alloc ok a size pos)
  | OCatb ok src => fst_ (array_catb ok a src)
  | OCopyb ok src => fst_ (array_copyb ok a src)
  | OCat0 ok => fst_ (array_cat0 ok a)
  | OCat0Temp ok => fst_ (array_cat0_temporary ok a)
  | OTrunc => Res (array_trunc a)
  | OTruncate ms n => Res (array_truncate a ms n)
  | OMoveleft ms pos => array_moveleft a ms pos
  | OFree => Res (array_free a)
  end.

Fixpoint aops (a : array) (l : list aop) : out array :=
  match l with
  | [] => Res a
  | o :: r => match aop_run a o with UB => UB | Res a' => aops a' r end
  end.

Lemma cat0_temporary_total : forall ok a, arr_ok a ->
  exists a' r, array_cat0_temporary ok a = Res (a', r) /\ arr_ok a'.
Proof.
  intros ok a Ha. destruct (N.ltb_spec (a_used a) (a_alloc a)) as [L|L].
  - destruct (array_cat0_temporary_correct ok a Ha L) as [a' [E [O _]]]. eauto.
  - unfold array_cat0_temporary.
    destruct (array_alloc ok a 1 (a_used a)) as [|[d [off|]]] eqn:E.
    + rewrite array_alloc_cases in E by (auto; destruct Ha; unfold SIZE in *; lia).
      destruct (_ && _); [destruct (_ <? _); [destruct ok|]|]; discriminate.
    + destruct (array_alloc_ok ok a 1 (a_used a) d (Some off)) as [O R]; auto; try (destruct Ha; unfold SIZE in *; lia).
      destruct (R off eq_refl) as [R1 [R2 R3]]. destruct (a_mem d) as [m|] eqn:Em; [|congruence].
      pose proof O as [O1 [O2 O3]]. rewrite Em in O3.
      destruct (write_at_ok m off [NUL]) as [m' [W1 [W2 W3]]]; [unfold len in *; simpl; lia|].
      rewrite W1. eexists. eexists. split; [reflexivity|]. unfold arr_ok; simpl. repeat split; try tauto. lia.
    + eexists. eexists. split; [reflexivity|].
      destruct (array_alloc_ok ok a 1 (a_used a) d None) as [O R]; auto; destruct Ha; unfold SIZE in *; lia.
Qed.

Lemma aop_run_ok : forall a o, arr_ok a -> aop_valid o -> exists a', aop_run a o = Res a' /\ arr_ok a'.
Proof.
  intros a o Ha Hv. destruct o; cbn [aop_run aop_valid] in *.
  - destruct Hv as [V1 V2]. destruct (array_alloc ok a size pos) as [|[d r]] eqn:E.
    + rewrite array_alloc_cases in E by auto.
      destruct (_ && _); [destruct (_ <? _); [destruct ok|]|]; discriminate.
    + eexists. split; [reflexivity|]. eapply array_alloc_ok; eauto.
  - destruct (array_catb_correct ok a src Ha Hv) as [a' [r [E [O _]]]]. rewrite E. eauto.
  - destruct (array_copyb_correct ok a src Ha Hv) as [a' [r [E [O _]]]]. rewrite E. eauto.
  - destruct (array_catb_correct ok a [NUL] Ha) as [a' [r [E [O _]]]]; [unfold len, SIZE; simpl; lia|].
    unfold array_cat0. rewrite E. eauto.
  - destruct (cat0_temporary_total ok a Ha) as [a' [r [E O]]]. rewrite E. eauto.
  - eexists. split; [reflexivity|]. apply arr_ok_trunc; auto.
  - eexists. split; [reflexivity|]. apply array_truncate_correct; tauto.
  - destruct (array_moveleft_correct a ms pos Ha) as [a' [E [O _]]]; try tauto. eauto.
  - eexists. split; [reflexivity|]. unfold arr_ok, array_free, SIZE; simpl. lia.
Qed.

Lemma aops_ok : forall l a, arr_ok a -> Forall aop_valid l -> exists a', aops a l = Res a' /\ arr_ok a'.
Proof.
  induction l as [|o l IH]; intros a Ha Hv; simpl; [eauto|].
  inversion Hv; subst. destruct (aop_run_ok a o Ha H1) as [a' [E O]]. rewrite E. apply IH; auto.
Qed.
