(** C08: strings without CR and LF.  [clv] says for a value of (almost) any type that no string in
    it contains CR or LF: for a function that it maps clean values to clean values, for an action of
    the monad that it keeps a clean state clean and returns a clean value (a unary logical relation). *)
From Coq Require Import List Ascii String ZArith NArith Bool Lia.
From Verif Require Import Bytes Match Lists Hash ParseReq State Messages Monad.
Import ListNotations.

(** a line that may be sent: at most 512 bytes, ends in CR LF, no other CR, LF or NUL *)
Definition legal_line (l : bytes) : Prop :=
  exists t, l = t ++ [CR; LF] /\ List.length t <= 510 /\ ~ In CR t /\ ~ In LF t /\ ~ In NUL t.

Class Cl (A : Type) : Type := clv : A -> Prop.
#[export] Instance Cl_ascii : Cl ascii := fun c => c <> CR /\ c <> LF.
#[export] Instance Cl_list {A} {C : Cl A} : Cl (list A) := Forall C.
#[export] Instance Cl_bytes : Cl bytes := @Cl_list ascii Cl_ascii.
#[export] Instance Cl_option {A} {C : Cl A} : Cl (option A) := fun o => match o with Some a => C a | None => True end.
#[export] Instance Cl_prod {A B} {C : Cl A} {D : Cl B} : Cl (A * B) := fun p => C (fst p) /\ D (snd p).
#[export] Instance Cl_sum {A B} {C : Cl A} {D : Cl B} : Cl (A + B) := fun x => match x with inl a => C a | inr b => D b end.
#[export] Instance Cl_fun {A B} {C : Cl A} {D : Cl B} : Cl (A -> B) | 10 := fun f => forall a, C a -> D (f a).
#[export] Instance Cl_default {A} : Cl A | 100 := fun _ => True.
#[export] Instance Cl_farg : Cl farg := fun a => match a with FS s => clv s | FC c => clv c | FD _ => True end.
#[export] Instance Cl_string : Cl string := fun s => @clv bytes Cl_bytes (B s).

Create HintDb clv discriminated.
#[export] Hint Constants Opaque : clv.
#[export] Hint Variables Opaque : clv.
#[export] Hint Transparent handle connid chandle : clv.
