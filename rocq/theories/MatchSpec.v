(** Specification of wildcard masks, independent of the implementation.
    '?' stands for any one byte, '*' for any sequence of bytes, any other byte for itself. *)
From Coq Require Import List Ascii.
From Verif Require Import Bytes.
Import ListNotations.

Inductive glob : bytes -> bytes -> Prop :=
| glob_nil  : glob [] []
| glob_lit  : forall c p t, c <> "?"%char -> c <> "*"%char -> glob p t -> glob (c :: p) (c :: t)
| glob_any  : forall x p t, glob p t -> glob ("?"%char :: p) (x :: t)
| glob_star : forall u p t, glob p t -> glob ("*"%char :: p) (u ++ t).

(** Same language, ignoring the case of ASCII letters. *)
Inductive globi : bytes -> bytes -> Prop :=
| globi_nil  : globi [] []
| globi_lit  : forall c d p t, c <> "?"%char -> c <> "*"%char -> tolower c = tolower d ->
                 globi p t -> globi (c :: p) (d :: t)
| globi_any  : forall x p t, globi p t -> globi ("?"%char :: p) (x :: t)
| globi_star : forall u p t, globi p t -> globi ("*"%char :: p) (u ++ t).

(** The two known defects of the matcher are excluded by these conditions. *)
Definition no_backslash (p : bytes) : Prop := ~ In "\"%char p.
Definition no_double_star_end (p : bytes) : Prop := forall q, p <> q ++ ["*"%char; "*"%char].
