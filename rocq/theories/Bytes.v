(** Byte strings and the C library / portability helpers of ngIRCd working on them.

    C strings are modelled as [list ascii] (the bytes in front of the
    terminating NUL).  *)
From Coq Require Import List Ascii String NArith ZArith Lia Bool.
From Coq Require DecimalString.
Import ListNotations.
Open Scope list_scope.

Definition byte := ascii.
Definition bytes := list ascii.

(** C string literal. *)
Definition B (s : string) : bytes := list_ascii_of_string s.

Definition NUL : ascii := "000"%char.
Definition CR  : ascii := "013"%char.
Definition LF  : ascii := "010"%char.
Definition SP  : ascii := " "%char.
Definition TAB : ascii := "009"%char.

(** strcmp(a,b) == 0 *)
Fixpoint beq (a b : bytes) : bool :=
  match a, b with
  | [], [] => true
  | x :: a', y :: b' => Ascii.eqb x y && beq a' b'
  | _, _ => false
  end.

(** Numeric value of a byte seen as [unsigned char]. *)
Definition uval (c : ascii) : N := N_of_ascii c.

(** Numeric value of a byte seen as [signed char] (the platform's [char]). *)
Definition sval (c : ascii) : Z :=
  let n := Z.of_N (N_of_ascii c) in if (n <? 128)%Z then n else (n - 256)%Z.

(** tolower(3) in the "C" locale (ngIRCd never calls setlocale(3)). *)
Definition tolower (c : ascii) : ascii :=
  let n := N_of_ascii c in
  if ((65 <=? n) && (n <=? 90))%N then ascii_of_N (n + 32) else c.

(** toupper(3) in the "C" locale. *)
Definition toupper (c : ascii) : ascii :=
  let n := N_of_ascii c in
  if ((97 <=? n) && (n <=? 122))%N then ascii_of_N (n - 32) else c.

(** src/tool/tool.c:95-108 ngt_LowerStr *)
Definition lower (s : bytes) : bytes := map tolower s.

(** src/tool/tool.c:76-89 ngt_UpperStr *)
Definition upper (s : bytes) : bytes := map toupper s.

(** strcasecmp(a,b) == 0 in the "C" locale. *)
Definition caseeq (a b : bytes) : bool := beq (lower a) (lower b).

(** strncasecmp(a,b,n) == 0 *)
Definition ncaseeq (n : nat) (a b : bytes) : bool := beq (lower (firstn n a)) (lower (firstn n b)).

(** strncmp(a,b,n) == 0 *)
Definition neq_prefix (n : nat) (a b : bytes) : bool := beq (firstn n a) (firstn n b).

(** strchr(s,c) for c <> NUL: [Some (before, from)] where [from] starts with c. *)
Fixpoint strchr (c : ascii) (s : bytes) : option (bytes * bytes) :=
  match s with
  | [] => None
  | x :: r => if Ascii.eqb x c then Some ([], x :: r)
              else match strchr c r with
                   | Some (p, f) => Some (x :: p, f)
                   | None => None
                   end
  end.

(** strchr(s,c) != NULL for a byte c that is not NUL. *)
Definition memb (c : ascii) (s : bytes) : bool := existsb (Ascii.eqb c) s.

(** strchr(s,c) != NULL where c may be NUL: strchr(3) finds the terminator. *)
Definition strchr0 (c : ascii) (s : bytes) : bool := Ascii.eqb c NUL || memb c s.

(** First byte of a string, NUL when empty: s[0]. *)
Definition hd0 (s : bytes) : ascii := match s with [] => NUL | c :: _ => c end.

(** src/portab/strlcpy.c:53-68 strlcpy: content of dst afterwards.
    The C function leaves dst alone for size = 0; no caller passes 0. *)
Definition strlcpy (size : nat) (src : bytes) : bytes :=
  if size <=? List.length src then firstn (size - 1) src else src.

(** src/portab/strlcpy.c:30-47 strlcat: content of dst afterwards. *)
Definition strlcat (size : nat) (dst src : bytes) : bytes :=
  let len1 := List.length dst in
  if (0 <? size) && (len1 <? size - 1)
  then dst ++ (if size - len1 <=? List.length src
               then firstn (size - len1 - 1) src else src)
  else dst.

(** src/portab/strlcpy.c:30-47: return value of strlcat. *)
Definition strlcat_ret (dst src : bytes) : nat := List.length dst + List.length src.

Definition is_space4 (c : ascii) : bool :=
  Ascii.eqb c SP || Ascii.eqb c TAB || Ascii.eqb c LF || Ascii.eqb c CR.

Fixpoint drop_while (f : ascii -> bool) (s : bytes) : bytes :=
  match s with
  | [] => []
  | c :: r => if f c then drop_while f r else s
  end.

(** src/tool/tool.c:40-70 ngt_TrimStr *)
Definition trim (s : bytes) : bytes :=
  rev (drop_while is_space4 (rev (drop_while is_space4 s))).

(** src/tool/tool.c:111-129 ngt_TrimLastChr *)
Definition trim_last (c : ascii) (s : bytes) : bytes :=
  match rev s with
  | x :: r => if Ascii.eqb x c then rev r else s
  | [] => []
  end.

(** The sequence of tokens strtok(3)/strtok_r(3) delivers for a single delimiter
    character: maximal non-empty runs without the delimiter. *)
Fixpoint strtok_aux (d : ascii) (s cur : bytes) : list bytes :=
  match s with
  | [] => match cur with [] => [] | _ => [rev cur] end
  | c :: r => if Ascii.eqb c d
              then match cur with
                   | [] => strtok_aux d r []
                   | _ => rev cur :: strtok_aux d r []
                   end
              else strtok_aux d r (c :: cur)
  end.
Definition strtok (d : ascii) (s : bytes) : list bytes := strtok_aux d s [].

(** Decimal output of printf's %d %ld %u %lu *)
Definition dec_N (n : N) : bytes := list_ascii_of_string (DecimalString.NilZero.string_of_uint (N.to_uint n)).
Definition dec (z : Z) : bytes :=
  if (z <? 0)%Z then "-"%char :: dec_N (Z.to_N (- z)) else dec_N (Z.to_N z).

Definition isdigit (c : ascii) : bool := let n := N_of_ascii c in ((48 <=? n) && (n <=? 57))%N.

Definition isspace (c : ascii) : bool :=
  let n := N_of_ascii c in ((n =? 32) || ((9 <=? n) && (n <=? 13)))%N.

Fixpoint digits_val (s : bytes) (acc : Z) : Z :=
  match s with
  | c :: r => if isdigit c then digits_val r (acc * 10 + Z.of_N (N_of_ascii c - 48))%Z else acc
  | [] => acc
  end.

(** atol(3): strtol(s, NULL, 10) of glibc, saturating at the limits of a 64 bit long. *)
Definition atol (s : bytes) : Z :=
  let s1 := drop_while isspace s in
  let v := match s1 with
           | c :: r => if Ascii.eqb c "-" then (- digits_val r 0)%Z
                       else if Ascii.eqb c "+" then digits_val r 0
                       else digits_val s1 0
           | [] => 0%Z
           end in
  Z.max (-9223372036854775808) (Z.min 9223372036854775807 v).

(** atoi(3): (int) strtol(s, NULL, 10); conversion to a 32 bit int wraps. *)
Definition atoi (s : bytes) : Z :=
  let v := (atol s mod 4294967296)%Z in
  if (v <? 2147483648)%Z then v else (v - 4294967296)%Z.

(** Lower case hexadecimal output of printf's %x for a value below 2^32. *)
Definition hexdigit (n : N) : ascii := if (n <? 10)%N then ascii_of_N (48 + n) else ascii_of_N (87 + n).
Fixpoint hex_aux (k : nat) (n : N) (acc : bytes) : bytes :=
  match k with
  | O => acc
  | S k' => let acc' := hexdigit (N.modulo n 16) :: acc in
            if (n <? 16)%N then acc' else hex_aux k' (N.div n 16) acc'
  end.
Definition hex (n : N) : bytes := hex_aux 8 n [].

(** Output of printf's %02u for a value below 100. *)
Definition dec2 (z : Z) : bytes := if (z <? 10)%Z then "0"%char :: dec z else dec z.

(** printf(3)-style formatting, restricted to the conversions used by ngIRCd's
    message strings: %s %c %d %ld %lu %u %x %02u %.1f %%.  The argument of %.1f is
    passed already rendered. *)
Inductive farg := FS (s : bytes) | FD (z : Z) | FC (c : ascii).

Fixpoint fmt (f : bytes) (args : list farg) : bytes :=
  match f with
  | [] => []
  | c :: f1 =>
    if Ascii.eqb c "%" then
      match f1 with
      | [] => []
      | d :: f2 =>
        if Ascii.eqb d "%" then "%"%char :: fmt f2 args
        else if Ascii.eqb d "s" then
          match args with FS s :: a => s ++ fmt f2 a | _ => [] end
        else if Ascii.eqb d "c" then
          match args with FC x :: a => x :: fmt f2 a | _ => [] end
        else if Ascii.eqb d "d" || Ascii.eqb d "u" then
          match args with FD z :: a => dec z ++ fmt f2 a | _ => [] end
        else if Ascii.eqb d "x" then
          match args with FD z :: a => hex (Z.to_N z) ++ fmt f2 a | _ => [] end
        else if Ascii.eqb d "0" then
          match f2 with
          | _ :: _ :: f3 => match args with FD z :: a => dec2 z ++ fmt f3 a | _ => [] end
          | _ => []
          end
        else if Ascii.eqb d "." then
          match f2 with
          | _ :: _ :: f3 => match args with FS s :: a => s ++ fmt f3 a | _ => [] end
          | _ => []
          end
        else if Ascii.eqb d "l" then
          match f2 with
          | _ :: f3 => match args with FD z :: a => dec z ++ fmt f3 a | _ => [] end
          | [] => []
          end
        else []
      end
    else c :: fmt f1 args
  end.

(** snprintf(buf, size, format, args): content of buf (size > 0). *)
Definition snprintf (size : nat) (f : string) (args : list farg) : bytes :=
  firstn (size - 1) (fmt (B f) args).

Definition sfmt (f : string) (args : list farg) : bytes := fmt (B f) args.

(** ---- basic facts ---- *)

Lemma beq_eq : forall a b, beq a b = true <-> a = b.
Proof.
  induction a as [|x a IH]; destruct b as [|y b]; simpl; split; intro H; try discriminate; auto.
  - apply andb_true_iff in H. destruct H as [H1 H2].
    apply Ascii.eqb_eq in H1. apply IH in H2. congruence.
  - inversion H; subst. rewrite Ascii.eqb_refl. simpl. apply IH. reflexivity.
Qed.

Lemma beq_refl : forall a, beq a a = true.
Proof. intro a. apply beq_eq. reflexivity. Qed.

Lemma beq_neq : forall a b, beq a b = false <-> a <> b.
Proof.
  intros a b. split; intro H.
  - intro E. apply beq_eq in E. congruence.
  - destruct (beq a b) eqn:E; auto. apply beq_eq in E. contradiction.
Qed.

Lemma beq_sym : forall a b, beq a b = beq b a.
Proof.
  intros a b. destruct (beq a b) eqn:E.
  - apply beq_eq in E. subst. symmetry. apply beq_refl.
  - symmetry. apply beq_neq. apply beq_neq in E. congruence.
Qed.

Lemma caseeq_iff : forall a b, caseeq a b = true <-> lower a = lower b.
Proof. intros. apply beq_eq. Qed.

Lemma caseeq_refl : forall a, caseeq a a = true.
Proof. intro. apply beq_refl. Qed.

Lemma caseeq_sym : forall a b, caseeq a b = caseeq b a.
Proof. intros. apply beq_sym. Qed.

Lemma caseeq_trans : forall a b c, caseeq a b = true -> caseeq b c = true -> caseeq a c = true.
Proof. intros a b c. rewrite !caseeq_iff. congruence. Qed.

Lemma lower_length : forall s, List.length (lower s) = List.length s.
Proof. intro s. apply map_length. Qed.

Lemma tolower_idem : forall c, tolower (tolower c) = tolower c.
Proof. intros [[] [] [] [] [] [] [] []]; vm_compute; reflexivity. Qed.

Lemma lower_idem : forall s, lower (lower s) = lower s.
Proof. intro s. unfold lower. rewrite map_map. apply map_ext. apply tolower_idem. Qed.

Lemma lower_app : forall a b, lower (a ++ b) = lower a ++ lower b.
Proof. intros. apply map_app. Qed.

Lemma memb_In : forall c s, memb c s = true <-> In c s.
Proof.
  intros c s. unfold memb. rewrite existsb_exists. split.
  - intros [x [H1 H2]]. apply Ascii.eqb_eq in H2. subst. auto.
  - intro H. exists c. split; auto. apply Ascii.eqb_refl.
Qed.

Lemma memb_not_In : forall c s, memb c s = false <-> ~ In c s.
Proof.
  intros c s. rewrite <- memb_In. destruct (memb c s); split; intro H; congruence.
Qed.

Lemma strlcpy_firstn : forall n s, strlcpy n s = firstn (n - 1) s \/ (n <= List.length s -> False) /\ strlcpy n s = s.
Proof.
  intros. unfold strlcpy. destruct (n <=? List.length s) eqn:E; auto.
  right. apply Nat.leb_gt in E. split; [lia | reflexivity].
Qed.

Lemma strlcpy_length : forall n s, 0 < n -> List.length (strlcpy n s) <= n - 1.
Proof.
  intros n s Hn. unfold strlcpy. destruct (n <=? List.length s) eqn:E.
  - rewrite firstn_length. lia.
  - apply Nat.leb_gt in E. lia.
Qed.

Lemma strlcpy_short : forall n s, List.length s < n -> strlcpy n s = s.
Proof.
  intros n s H. unfold strlcpy. destruct (n <=? List.length s) eqn:E; auto.
  apply Nat.leb_le in E. lia.
Qed.

Lemma strlcpy_is_firstn : forall n s, 0 < n -> strlcpy n s = firstn (n - 1) s.
Proof.
  intros n s Hn. unfold strlcpy. destruct (n <=? List.length s) eqn:E; auto.
  apply Nat.leb_gt in E. symmetry. apply firstn_all2. lia.
Qed.

Lemma strlcat_length : forall n d s, List.length d <= n - 1 -> List.length (strlcat n d s) <= n - 1.
Proof.
  intros n d s Hd. unfold strlcat.
  destruct (0 <? n) eqn:E0; simpl; auto.
  destruct (List.length d <? n - 1) eqn:E1; auto.
  apply Nat.ltb_lt in E0. apply Nat.ltb_lt in E1.
  rewrite app_length.
  destruct (n - List.length d <=? List.length s) eqn:E2.
  - rewrite firstn_length. lia.
  - apply Nat.leb_gt in E2. lia.
Qed.

Lemma strlcat_is_firstn : forall n d s, 0 < n -> List.length d <= n - 1 ->
  strlcat n d s = firstn (n - 1) (d ++ s).
Proof.
  intros n d s Hn Hd. unfold strlcat.
  assert (E0 : (0 <? n) = true) by (apply Nat.ltb_lt; lia). rewrite E0. simpl.
  destruct (List.length d <? n - 1) eqn:E1.
  - apply Nat.ltb_lt in E1. rewrite firstn_app. rewrite (@firstn_all2 _ (n-1) d) by lia. f_equal.
    destruct (n - List.length d <=? List.length s) eqn:E2.
    + f_equal. lia.
    + apply Nat.leb_gt in E2. symmetry. apply firstn_all2. lia.
  - apply Nat.ltb_ge in E1. rewrite firstn_app. rewrite (@firstn_all2 _ (n-1) d) by lia.
    replace (n - 1 - List.length d) with 0 by lia. simpl. rewrite app_nil_r. reflexivity.
Qed.

Lemma skipn_skipn : forall A (x y : nat) (l : list A), skipn x (skipn y l) = skipn (x + y) l.
Proof.
  intros A x y. revert x. induction y as [|y IH]; intros x l.
  - rewrite Nat.add_0_r. reflexivity.
  - destruct l as [|a l].
    + rewrite !skipn_nil. reflexivity.
    + rewrite Nat.add_succ_r. simpl. apply IH.
Qed.
