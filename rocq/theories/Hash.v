(** Model of src/ngircd/hash.c *)
From Coq Require Import List Ascii NArith.
From Verif Require Import Bytes Match.
Import ListNotations.
Local Open Scope N_scope.

(** UINT32 arithmetic *)
Definition w32 (n : N) : N := N.land n 4294967295.
Definition add32 (a b : N) : N := w32 (a + b).
Definition sub32 (a b : N) : N := w32 (a + 4294967296 - b).
Definition xor32 (a b : N) : N := N.lxor a b.
(** src/ngircd/hash.c:61 rot(x,k) *)
Definition rot (x k : N) : N := N.lor (w32 (N.shiftl x k)) (N.shiftr x (32 - k)).

(** src/ngircd/hash.c:63-71 mix(a,b,c) *)
Definition mix (abc : N * N * N) : N * N * N :=
  let '(a, b, c) := abc in
  let a := sub32 a c in let a := xor32 a (rot c 4) in let c := add32 c b in
  let b := sub32 b a in let b := xor32 b (rot a 6) in let a := add32 a c in
  let c := sub32 c b in let c := xor32 c (rot b 8) in let b := add32 b a in
  let a := sub32 a c in let a := xor32 a (rot c 16) in let c := add32 c b in
  let b := sub32 b a in let b := xor32 b (rot a 19) in let a := add32 a c in
  let c := sub32 c b in let c := xor32 c (rot b 4) in let b := add32 b a in
  (a, b, c).

(** src/ngircd/hash.c:73-82 final(a,b,c) *)
Definition final (abc : N * N * N) : N :=
  let '(a, b, c) := abc in
  let c := xor32 c b in let c := sub32 c (rot b 14) in
  let a := xor32 a c in let a := sub32 a (rot c 11) in
  let b := xor32 b a in let b := sub32 b (rot a 25) in
  let c := xor32 c b in let c := sub32 c (rot b 16) in
  let a := xor32 a c in let a := sub32 a (rot c 4) in
  let b := xor32 b a in let b := sub32 b (rot a 14) in
  let c := xor32 c b in let c := sub32 c (rot b 24) in
  c.

(** k[i], reading 0 beyond the end (the switch never adds bytes >= length). *)
Definition kat (k : bytes) (i : nat) : N := match nth_error k i with Some c => N_of_ascii c | None => 0 end.
Definition word (k : bytes) (i : nat) : N :=
  kat k i + N.shiftl (kat k (i + 1)) 8 + N.shiftl (kat k (i + 2)) 16 + N.shiftl (kat k (i + 3)) 24.

(** src/ngircd/hash.c:96-104: while (length > 12); the recursion is on a bound of
    the number of blocks.  Lines 107-137: last block (k[i] read as 0 for i >= length). *)
Fixpoint jloop (n : nat) (k : bytes) (a b c : N) : N :=
  if Nat.ltb 12 (List.length k) then
    match n with
    | O => c
    | S n' =>
        let '(a, b, c) := mix (add32 a (word k 0), add32 b (word k 4), add32 c (word k 8)) in
        jloop n' (skipn 12 k) a b c
    end
  else match k with
       | [] => c
       | _ => final (add32 a (word k 0), add32 b (word k 4), add32 c (word k 8))
       end.

(** src/ngircd/hash.c:84-138 jenkins_hash *)
Definition jenkins_hash (k : bytes) (initval : N) : N :=
  let i := w32 (3735928559 + N.of_nat (List.length k) + initval) in
  jloop (List.length k) k i i i.

(** src/ngircd/hash.c:35-43 Hash *)
Definition Hash (s : bytes) : N := jenkins_hash (lower (strlcpy COMMAND_LEN s)) 42.

Lemma Hash_case : forall a b, caseeq a b = true -> Hash a = Hash b.
Proof.
  intros a b H. apply caseeq_iff in H. unfold Hash. f_equal.
  rewrite !strlcpy_is_firstn by (unfold COMMAND_LEN; apply PeanoNat.Nat.ltb_lt; reflexivity).
  unfold lower in *. rewrite <- !firstn_map. rewrite H. reflexivity.
Qed.
