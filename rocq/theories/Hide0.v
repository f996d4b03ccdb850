(** C30: running a program in a state from which a channel has been taken out. *)
From Coq Require Import List Ascii String ZArith NArith Bool Lia Arith.
From Verif Require Import Bytes Strl Match Lists Hash ParseReq State Messages Monad Core.
Import ListNotations.
Local Open Scope m_scope.

(** the state without the channel [ch]: neither the channel itself nor its list of members *)
Definition hide (ch : chandle) (s : state) : state :=
  set_s_members (filter (fun m => negb (Nat.eqb (mb_chan m) ch)) (s_members s)) (set_s_chans (adel ch (s_chans s)) s).

Definition hres {A} (ch : chandle) (r : res A) : res A :=
  match r with Ok a s => Ok a (hide ch s) | Bad w => Bad w end.
Definition comm {A} (ch : chandle) (m : M A) : Prop := forall s, m (hide ch s) = hres ch (m s).

Section S.
Variable k0 : chandle.
Notation comm := (comm k0).
Lemma comm_bind : forall A E (m : M A) (k : A -> M E), comm m -> (forall a, comm (k a)) -> comm (bind m k).
Proof. intros A E m k Hm Hk s. unfold bind. rewrite (Hm s). destruct (m s) as [a s'|w]; cbn [hres]; [apply Hk|reflexivity]. Qed.
Lemma comm_ret : forall A (a : A), comm (ret a). Proof. intros A a s. reflexivity. Qed.
Lemma comm_bad : forall A w, comm (@bad A w). Proof. intros A w s. reflexivity. Qed.
Lemma comm_gets : forall A (f : state -> A), (forall s, f (hide k0 s) = f s) -> comm (gets f).
Proof. intros A f H s. unfold gets. cbn [hres]. rewrite H. reflexivity. Qed.
Lemma comm_modify : forall f, (forall s, f (hide k0 s) = hide k0 (f s)) -> comm (modify f).
Proof. intros f H s. unfold modify. cbn [hres]. rewrite H. reflexivity. Qed.
Lemma comm_cli : forall h, comm (cli h).
Proof. intros h s. unfold cli. change (s_heap (hide k0 s)) with (s_heap s). destruct (assoc _ _); reflexivity. Qed.
Lemma comm_con : forall h, comm (con h).
Proof. intros h s. unfold con. change (s_conns (hide k0 s)) with (s_conns s). destruct (assoc _ _); reflexivity. Qed.
Lemma comm_assertM : forall b, comm (assertM b). Proof. intros [] s; reflexivity. Qed.
Lemma comm_nonnull : forall A (o : option A), comm (nonnull o). Proof. intros A [] s; reflexivity. Qed.
Lemma comm_mfor : forall A (l : list A) f, (forall a, comm (f a)) -> comm (mfor l f).
Proof. intros A l f H. induction l; cbn [mfor]; [apply comm_ret|apply comm_bind; auto]. Qed.
Lemma comm_mfold : forall A E (l : list A) (f : E -> A -> M E), (forall e a, comm (f e a)) -> forall e, comm (mfold f l e).
Proof. intros A E l f H. induction l; intro e; cbn [mfold]; [apply comm_ret|apply comm_bind; auto]. Qed.
Lemma comm_mloop : forall A R (l : list A) (f : A -> M (option R)), (forall a, comm (f a)) -> comm (mloop l f).
Proof. intros A R l f H. induction l; cbn [mloop]; [apply comm_ret|apply comm_bind; auto]. intros []; [apply comm_ret|auto]. Qed.
Lemma comm_mfind : forall A (l : list A) f, (forall a, comm (f a)) -> comm (mfind f l).
Proof. intros A l f H. induction l; cbn [mfind]; [apply comm_ret|apply comm_bind; auto]. intros []; [apply comm_ret|auto]. Qed.
Lemma comm_mcount : forall A (l : list A) f, (forall a, comm (f a)) -> comm (mcount f l).
Proof. intros A l f H. induction l; cbn [mcount]; [apply comm_ret|apply comm_bind; auto]. intro. apply comm_bind; auto. intro. apply comm_ret. Qed.
Lemma comm_mseq : forall A (l : list (M A)), Forall comm l -> comm (mseq l).
Proof. intros A l H. induction H; cbn [mseq]; [apply comm_ret|apply comm_bind; auto]. intro. apply comm_bind; auto. intro. apply comm_ret. Qed.
Lemma comm_map : forall A E (f : A -> M E) l, (forall a, comm (f a)) -> Forall comm (map f l).
Proof. intros A E f l H. induction l; constructor; auto. Qed.
Lemma comm_app : forall A (l l' : list (M A)), Forall comm l -> Forall comm l' -> Forall comm (l ++ l').
Proof. intros. apply Forall_app; auto. Qed.
Lemma comm_whenM : forall b m, comm m -> comm (whenM b m). Proof. intros [] m H; [exact H|apply comm_ret]. Qed.
End S.
Create HintDb comm discriminated.
#[export] Hint Constants Opaque : comm.
#[export] Hint Resolve comm_ret comm_cli comm_con comm_assertM comm_nonnull comm_bad : comm.

#[export] Hint Extern 0 (comm _ (bind _ _)) => apply comm_bind : comm.
#[export] Hint Extern 0 (comm _ (let _ := _ in _)) => cbv zeta : comm.
#[export] Hint Extern 0 (comm _ ((fun _ => _) _)) => cbv beta : comm.
#[export] Hint Extern 0 (comm _ (gets _)) => (apply comm_gets; intro; reflexivity) : comm.
#[export] Hint Extern 0 (comm _ (modify _)) => (apply comm_modify; intro; reflexivity) : comm.
#[export] Hint Extern 0 (comm _ (whenM _ _)) => apply comm_whenM : comm.
#[export] Hint Extern 0 (comm _ (mfor _ _)) => apply comm_mfor : comm.
#[export] Hint Extern 0 (comm _ (mfold _ _ _)) => apply comm_mfold : comm.
#[export] Hint Extern 0 (comm _ (mloop _ _)) => apply comm_mloop : comm.
#[export] Hint Extern 0 (comm _ (mfind _ _)) => apply comm_mfind : comm.
#[export] Hint Extern 0 (comm _ (mcount _ _)) => apply comm_mcount : comm.
#[export] Hint Extern 0 (comm _ (mseq _)) => apply comm_mseq : comm.
#[export] Hint Extern 0 (comm _ skip) => apply comm_ret : comm.
#[export] Hint Extern 0 (comm _ (andM _ _)) => unfold andM : comm.
#[export] Hint Extern 0 (comm _ (orM _ _)) => unfold orM : comm.
#[export] Hint Extern 0 (comm _ (notM _)) => unfold notM : comm.
#[export] Hint Extern 0 (comm _ (cf _)) => (apply comm_gets; intro; reflexivity) : comm.
#[export] Hint Extern 0 (comm _ now) => (apply comm_gets; intro; reflexivity) : comm.
#[export] Hint Extern 0 (comm _ (upd_cli _ _)) => unfold upd_cli : comm.
#[export] Hint Extern 0 (comm _ (upd_con _ _)) => (apply comm_modify; intro; reflexivity) : comm.
#[export] Hint Extern 0 (comm _ (match ?t with _ => _ end)) => destruct t : comm.
#[export] Hint Extern 0 (Forall (comm _) nil) => constructor : comm.
#[export] Hint Extern 0 (Forall (comm _) (_ :: _)) => constructor : comm.
#[export] Hint Extern 0 (Forall (comm _) (map _ _)) => apply comm_map : comm.
#[export] Hint Extern 0 (Forall (comm _) (_ ++ _)) => apply comm_app : comm.
#[export] Hint Extern 0 (Forall (comm _) (match ?t with _ => _ end)) => destruct t : comm.
Ltac cm := auto 100 with comm nocore.
