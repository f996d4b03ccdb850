(** Specifications for what is told about the modes of users: MODE and AWAY (C28). *)
From Coq Require Import List Ascii String ZArith NArith Bool.
From Verif Require Import Bytes Match Lists ParseReq State Monad Spec SpecLink SpecMode.
Import ListNotations.

(** the letters [x] that user [d] may set for himself, or remove, or a server for one of its users; those with a
    special meaning (the modes a, B and x) are left out *)
Definition may_umode (c d : client) (add : bool) (x : ascii) : Prop :=
  (cl_type c = T_USER /\ (In x (B "bCiIsw") \/ (In x (B "cqF") /\ (add = true -> In "o"%char (cl_modes d))) \/ (x = "o"%char /\ add = false) \/ (x = "r"%char /\ add = true))) \/
  (cl_type c = T_SERVER /\ ~ In x (NUL :: B "+-aBx")).
(** those of the letters [fs] that are a change of the modes [ms] *)
Definition uchanged (ms : bytes) (add : bool) (fs : bytes) : bytes := filter (fun x => negb (Bool.eqb (memb x ms) add)) fs.
(** the command which tells it; none if nothing changed *)
Definition umode_msgs (nick : bytes) (add : bool) (fs : bytes) : list bytes :=
  match fs with [] => [] | _ => [B "MODE " ++ nick ++ B " :" ++ sign_of add :: fs] end.
(** user [g] has these modes, and is as he was otherwise *)
Definition new_modes (s s' : state) (g : handle) (e : client) (add : bool) (fs : bytes) : Prop :=
  exists ms, known s' g (set_cl_modes ms e) /\ forall x, In x ms <-> if memb x fs then add = true else In x (cl_modes e).
