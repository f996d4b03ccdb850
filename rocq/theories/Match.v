(** Model of src/ngircd/match.c (wildcard matching). *)
From Coq Require Import List Ascii String Arith Bool Lia.
From Verif Require Import Bytes.
Import ListNotations.

(** src/ngircd/match.c:36-41, plus [M_NONE] for the initial value 0 of the local
    variable "match" in Matche_After_Star (line 136).  MATCH_RANGE is never produced. *)
Inductive mres := M_NONE | M_VALID | M_END | M_ABORT | M_LITERAL | M_PATTERN.

(** src/ngircd/match.c:138-150: the loop skipping '?' and '*'.  [None] is the early
    "return MATCH_ABORT". *)
Fixpoint skip_wild (p t : bytes) : option (bytes * bytes) :=
  match p with
  | c :: p1 =>
      if Ascii.eqb c "?" then match t with [] => None | _ :: t1 => skip_wild p1 t1 end
      else if Ascii.eqb c "*" then skip_wild p1 t
      else Some (p, t)
  | [] => Some ([], t)
  end.

(** src/ngircd/match.c:166-176: the do-while loop; [f] is [Matche p]. *)
Fixpoint star_loop (f : bytes -> mres) (nextp : ascii) (m : mres) (t : bytes) : mres :=
  match t with
  | [] => M_ABORT
  | x :: t1 =>
      let m' := if Ascii.eqb nextp x || Ascii.eqb nextp "[" then f t else m in
      match m' with
      | M_VALID | M_ABORT | M_PATTERN => m'
      | _ => star_loop f nextp m' t1
      end
  end.

(** src/ngircd/match.c:103-131 Matche and 133-180 Matche_After_Star.  The mutual
    recursion is bounded by [fuel]; every call of Matche below a star works on a
    strictly shorter pattern, so [S (length p)] is always enough (never reached:
    see MatchProofs). *)
Fixpoint Matche (fuel : nat) (p t : bytes) : mres :=
  match fuel with
  | O => M_PATTERN
  | S n =>
    match p with
    | [] => match t with [] => M_VALID | _ => M_END end
    | c :: p1 =>
      match t with
      | [] => if Ascii.eqb c "*" && beq p1 [] then M_VALID else M_ABORT
      | x :: t1 =>
        if Ascii.eqb c "?" then Matche n p1 t1
        else if Ascii.eqb c "*" then
          (* Matche_After_Star( p, t ) *)
          match skip_wild p t with
          | None => M_ABORT
          | Some ([], _) => M_VALID
          | Some (d :: p2, t2) =>
              if Ascii.eqb d "\" then
                match p2 with
                | [] => M_PATTERN
                | d2 :: _ => star_loop (Matche n (d :: p2)) d2 M_NONE t2
                end
              else star_loop (Matche n (d :: p2)) d M_NONE t2
          end
        else if Ascii.eqb c x then Matche n p1 t1
        else M_LITERAL
      end
    end
  end.

(** src/ngircd/match.c:50-57 Match *)
Definition Match (Pattern Str : bytes) : bool :=
  match Matche (S (List.length Pattern)) Pattern Str with M_VALID => true | _ => false end.

Definition COMMAND_LEN : nat := 513.   (* src/ngircd/defines.h:151 *)

(** src/ngircd/match.c:66-75 MatchCaseInsensitive *)
Definition MatchCaseInsensitive (Pattern Str : bytes) : bool :=
  Match (lower (strlcpy COMMAND_LEN Pattern)) (lower (strlcpy COMMAND_LEN Str)).

(** src/ngircd/match.c:85-101 MatchCaseInsensitiveList; all callers pass a separator
    of one character (","). *)
Definition MatchCaseInsensitiveList (Pattern Str : bytes) (sep : ascii) : bool :=
  existsb (fun ptr => MatchCaseInsensitive (trim ptr) Str)
          (strtok sep (strlcpy COMMAND_LEN Pattern)).
