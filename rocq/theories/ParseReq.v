(** Model of the syntactic part of src/ngircd/parse.c: splitting a line into a request. *)
From Coq Require Import List Ascii String ZArith Bool.
From Verif Require Import Bytes.
Import ListNotations.

(** src/ngircd/parse.h: REQUEST; argv[] beyond argc is NULL (Init_Request). *)
Record request := mkReq {
  rq_prefix : option bytes;
  rq_command : bytes;
  rq_args : list bytes
}.

Definition argc (r : request) : nat := List.length (rq_args r).
Definition arg (r : request) (i : nat) : bytes := nth i (rq_args r) [].

(** Split at the first blank; the second component is what follows the run of blanks
    ("ignore multiple spaces", parse.c:209, 221, 245), or None without a blank. *)
Definition cut (s : bytes) : bytes * option bytes :=
  match strchr SP s with
  | None => (s, None)
  | Some (a, r) => (a, Some (drop_while (Ascii.eqb SP) r))
  end.

(** src/ngircd/parse.c:226-258: the parameter loop; [n] = argc so far is counted down
    from 15 ("if( req.argc > 14 ) break"). *)
Fixpoint parse_args (n : nat) (start : bytes) : list bytes :=
  match n with
  | O => []
  | S n' =>
      match start with
      | c :: r =>
          if Ascii.eqb c ":" then [r]
          else let '(a, rest) := cut start in
               a :: match rest with Some s => parse_args n' s | None => [] end
      | [] => [[]]
      end
  end.

(** src/ngircd/parse.c:176-258: Parse_Request up to the validation, applied to the already
    trimmed line.  [None] is the error "Prefix without command" (lines 201-205). *)
Definition parse_command (prefix : option bytes) (s : bytes) : request :=
  let '(cmd, rest) := cut s in
  mkReq prefix cmd (match rest with Some r => parse_args 15 r | None => [] end).

Definition parse_line (line : bytes) : option request :=
  match line with
  | c :: r =>
      if Ascii.eqb c ":" then
        match cut line with
        | (pre, Some rest) => Some (parse_command (Some (tl pre)) rest)
        | (_, None) => None
        end
      else Some (parse_command None line)
  | [] => Some (parse_command None [])
  end.

Definition SOH : ascii := "001"%char.

(** src/ngircd/parse.c:582-609 ScrubCTCP: must this line be dropped? *)
Definition ScrubCTCP (line : bytes) : bool :=
  let ptr := match line with
             | c :: r => if Ascii.eqb c ":" then r else line
             | [] => []
             end in
  let ptr := drop_while (fun c => negb (Ascii.eqb c ":")) ptr in
  match ptr with
  | _ :: c :: r =>
      if Ascii.eqb c SOH then negb (neq_prefix 7 r (B "ACTION ")) else false
  | _ => false
  end.
