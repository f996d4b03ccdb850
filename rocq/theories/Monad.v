(** The state monad of the server model.

    [Bad w] is a distinct outcome: a failed assert(3), the use of a freed structure, a read
    outside of a string, or (never in practice) exhausted recursion fuel. *)
From Coq Require Import List Ascii String ZArith NArith Bool.
From Verif Require Import Bytes Lists State.
Import ListNotations.

Inductive why := W_Assert | W_Dangling | W_OverRead | W_Fuel.
Inductive res (A : Type) := Ok (a : A) (s : state) | Bad (w : why).
Arguments Ok {A}. Arguments Bad {A}.

Definition M (A : Type) := state -> res A.

Definition ret {A} (a : A) : M A := fun s => Ok a s.
Definition bind {A B} (m : M A) (k : A -> M B) : M B :=
  fun s => match m s with Ok a s' => k a s' | Bad w => Bad w end.
Definition bad {A} (w : why) : M A := fun _ => Bad w.

Declare Scope m_scope.
Delimit Scope m_scope with m.
Notation "x <- m ;; k" := (bind m (fun x => k)) (at level 61, m at next level, right associativity) : m_scope.
Notation "' p <- m ;; k" := (bind m (fun x => let p := x in k))
  (at level 61, p pattern, m at next level, right associativity) : m_scope.
Notation "m ;;; k" := (bind m (fun _ => k)) (at level 61, right associativity) : m_scope.
Local Open Scope m_scope.

Definition gets {A} (f : state -> A) : M A := fun s => Ok (f s) s.
Definition modify (f : state -> state) : M unit := fun s => Ok tt (f s).
Definition skip : M unit := ret tt.
(** assert(b) *)
Definition assertM (b : bool) : M unit := if b then ret tt else bad W_Assert.
(** if (b) m; *)
Definition whenM (b : bool) (m : M unit) : M unit := if b then m else ret tt.

(** Short-circuit operators with effectful operands. *)
Definition andM (a b : M bool) : M bool := x <- a ;; if x then b else ret false.
Definition orM (a b : M bool) : M bool := x <- a ;; if x then ret true else b.
Definition notM (a : M bool) : M bool := x <- a ;; ret (negb x).

(** Loop over a list. *)
Fixpoint mfor {A} (l : list A) (f : A -> M unit) : M unit :=
  match l with
  | [] => ret tt
  | a :: r => f a ;;; mfor r f
  end.

(** Loop with an accumulator. *)
Fixpoint mfold {A B} (f : B -> A -> M B) (l : list A) (b : B) : M B :=
  match l with
  | [] => ret b
  | a :: r => b' <- f b a ;; mfold f r b'
  end.

(** Loop that is left early: [Some r] is "return r". *)
Fixpoint mloop {A R} (l : list A) (f : A -> M (option R)) : M (option R) :=
  match l with
  | [] => ret None
  | a :: r => x <- f a ;; match x with Some v => ret (Some v) | None => mloop r f end
  end.

(** First element with an effectful property. *)
Fixpoint mfind {A} (f : A -> M bool) (l : list A) : M (option A) :=
  match l with
  | [] => ret None
  | a :: r => b <- f a ;; if b then ret (Some a) else mfind f r
  end.

Fixpoint mcount {A} (f : A -> M bool) (l : list A) : M Z :=
  match l with
  | [] => ret 0%Z
  | a :: r => b <- f a ;; n <- mcount f r ;; ret (if b then (n + 1)%Z else n)
  end.

Fixpoint mseq {A} (l : list (M A)) : M (list A) :=
  match l with
  | [] => ret []
  | m :: r => a <- m ;; t <- mseq r ;; ret (a :: t)
  end.

(** ---- finite maps as association lists ---- *)
Fixpoint assoc {A} (k : nat) (l : list (nat * A)) : option A :=
  match l with
  | [] => None
  | (k', a) :: r => if Nat.eqb k k' then Some a else assoc k r
  end.
Definition aupd {A} (k : nat) (f : A -> A) (l : list (nat * A)) : list (nat * A) :=
  map (fun p => if Nat.eqb k (fst p) then (fst p, f (snd p)) else p) l.
Definition adel {A} (k : nat) (l : list (nat * A)) : list (nat * A) :=
  filter (fun p => negb (Nat.eqb k (fst p))) l.

(** ---- CLIENT structures ---- *)
(** The null handle: This_Server (src/ngircd/client.c:53) *)
Definition This_Server : handle := 0.

(** Access to a CLIENT structure through a pointer. *)
Definition cli (h : handle) : M client :=
  fun s => match assoc h (s_heap s) with Some c => Ok c s | None => Bad W_Dangling end.
Definition upd_cli (h : handle) (f : client -> client) : M unit :=
  cli h ;;; modify (fun s => set_s_heap (aupd h f (s_heap s)) s).

(** Comparison of two CLIENT pointers / of a pointer that may be NULL with a pointer. *)
Definition heq (a b : handle) : bool := Nat.eqb a b.
Definition oheq (a : option handle) (b : handle) : bool := match a with Some x => Nat.eqb x b | None => false end.
(** Dereferencing a CLIENT pointer that may be NULL: assert(Client != NULL). *)
Definition nonnull {A} (a : option A) : M A := match a with Some x => ret x | None => bad W_Assert end.

(** ---- CHANNEL structures ---- *)
Definition chan (h : chandle) : M channel :=
  fun s => match assoc h (s_chans s) with Some c => Ok c s | None => Bad W_Dangling end.
Definition upd_chan (h : chandle) (f : channel -> channel) : M unit :=
  chan h ;;; modify (fun s => set_s_chans (aupd h f (s_chans s)) s).

(** ---- CONNECTION structures ---- *)
(** src/ngircd/conn.c:2137-2162 Init_Conn_Struct: an unused slot (sock == NONE). *)
Definition closed_conn (now : Z) : conn :=
  mkConn false [] [] None [] now now 0 now 0 0 0 0 0 0 false false false 0 None 0.
(** My_Connections[Idx]; a slot missing from the list is unused. *)
Definition con (i : connid) : M conn :=
  fun s => match assoc i (s_conns s) with Some c => Ok c s | None => Ok (closed_conn (s_now s)) s end.
(** Updates of unused slots are dropped: Init_Conn_Struct resets them before they are used. *)
Definition upd_con (i : connid) (f : conn -> conn) : M unit :=
  modify (fun s => set_s_conns (aupd i f (s_conns s)) s).

Definition cf {A} (f : conf -> A) : M A := gets (fun s => f (s_conf s)).
Definition now : M Z := gets s_now.
