(** C40: the property "never reads outside of a string" of monadic programs, and its closure
    rules. *)
From Coq Require Import List Ascii String ZArith NArith Bool Lia Arith.
From Verif Require Import Bytes Strl Match Lists Hash ParseReq State Messages Monad Core.
Import ListNotations.
Local Open Scope m_scope.

Definition safe {A} (m : M A) : Prop := forall s, m s <> Bad W_OverRead.

Lemma safe_bind : forall A E (m : M A) (k : A -> M E), safe m -> (forall a, safe (k a)) -> safe (bind m k).
Proof. intros A E m k Hm Hk s. unfold bind. specialize (Hm s). destruct (m s) as [a s'|w]; [apply Hk|congruence]. Qed.
Lemma safe_ret : forall A (a : A), safe (ret a). Proof. discriminate. Qed.
Lemma safe_bad : forall A w, w <> W_OverRead -> safe (@bad A w). Proof. intros A w H s E. inversion E. auto. Qed.
Lemma safe_gets : forall A (f : state -> A), safe (gets f). Proof. discriminate. Qed.
Lemma safe_modify : forall f, safe (modify f). Proof. discriminate. Qed.
Lemma safe_cli : forall h, safe (cli h). Proof. intros h s. unfold cli. destruct (assoc _ _); discriminate. Qed.
Lemma safe_chan : forall h, safe (chan h). Proof. intros h s. unfold chan. destruct (assoc _ _); discriminate. Qed.
Lemma safe_con : forall h, safe (con h). Proof. intros h s. unfold con. destruct (assoc _ _); discriminate. Qed.
Lemma safe_assertM : forall b, safe (assertM b). Proof. intros [] s; discriminate. Qed.
Lemma safe_nonnull : forall A (o : option A), safe (nonnull o). Proof. intros A [] s; discriminate. Qed.
Lemma safe_mfor : forall A (l : list A) f, (forall a, safe (f a)) -> safe (mfor l f).
Proof. intros A l f H. induction l; cbn [mfor]; [apply safe_ret|apply safe_bind; auto]. Qed.
Lemma safe_mfold : forall A E (l : list A) (f : E -> A -> M E), (forall e a, safe (f e a)) -> forall e, safe (mfold f l e).
Proof. intros A E l f H. induction l; intro e; cbn [mfold]; [apply safe_ret|apply safe_bind; auto]. Qed.
Lemma safe_mloop : forall A R (l : list A) (f : A -> M (option R)), (forall a, safe (f a)) -> safe (mloop l f).
Proof. intros A R l f H. induction l; cbn [mloop]; [apply safe_ret|apply safe_bind; auto]. intros []; [apply safe_ret|auto]. Qed.
Lemma safe_mfind : forall A (l : list A) f, (forall a, safe (f a)) -> safe (mfind f l).
Proof. intros A l f H. induction l; cbn [mfind]; [apply safe_ret|apply safe_bind; auto]. intros []; [apply safe_ret|auto]. Qed.
Lemma safe_mcount : forall A (l : list A) f, (forall a, safe (f a)) -> safe (mcount f l).
Proof. intros A l f H. induction l; cbn [mcount]; [apply safe_ret|apply safe_bind; auto]. intro. apply safe_bind; auto. intro. apply safe_ret. Qed.
Lemma safe_mseq : forall A (l : list (M A)), Forall safe l -> safe (mseq l).
Proof. intros A l H. induction H; cbn [mseq]; [apply safe_ret|apply safe_bind; auto]. intro. apply safe_bind; auto. intro. apply safe_ret. Qed.
Lemma safe_map : forall A E (f : A -> M E) l, (forall a, safe (f a)) -> Forall safe (map f l).
Proof. intros A E f l H. induction l; constructor; auto. Qed.
Lemma safe_app : forall A (l l' : list (M A)), Forall safe l -> Forall safe l' -> Forall safe (l ++ l').
Proof. intros. apply Forall_app; auto. Qed.
Lemma safe_whenM : forall b m, safe m -> safe (whenM b m). Proof. intros [] m H; [exact H|apply safe_ret]. Qed.
Create HintDb safe discriminated.
#[export] Hint Constants Opaque : safe.
#[export] Hint Resolve safe_ret safe_gets safe_modify safe_cli safe_chan safe_con safe_assertM safe_nonnull : safe.

#[export] Hint Extern 0 (safe (bind _ _)) => apply safe_bind : safe.
#[export] Hint Extern 0 (safe (let _ := _ in _)) => cbv zeta : safe.
#[export] Hint Extern 0 (safe ((fun _ => _) _)) => cbv beta : safe.
#[export] Hint Extern 0 (safe (bad _)) => (apply safe_bad; discriminate) : safe.
#[export] Hint Extern 0 (safe (gets _)) => apply safe_gets : safe.
#[export] Hint Extern 0 (safe (modify _)) => apply safe_modify : safe.
#[export] Hint Extern 0 (safe (whenM _ _)) => apply safe_whenM : safe.
#[export] Hint Extern 0 (safe (mfor _ _)) => apply safe_mfor : safe.
#[export] Hint Extern 0 (safe (mfold _ _ _)) => apply safe_mfold : safe.
#[export] Hint Extern 0 (safe (mloop _ _)) => apply safe_mloop : safe.
#[export] Hint Extern 0 (safe (mfind _ _)) => apply safe_mfind : safe.
#[export] Hint Extern 0 (safe (mcount _ _)) => apply safe_mcount : safe.
#[export] Hint Extern 0 (safe (mseq _)) => apply safe_mseq : safe.
#[export] Hint Extern 0 (safe skip) => apply safe_ret : safe.
#[export] Hint Extern 0 (safe (andM _ _)) => unfold andM : safe.
#[export] Hint Extern 0 (safe (orM _ _)) => unfold orM : safe.
#[export] Hint Extern 0 (safe (notM _)) => unfold notM : safe.
#[export] Hint Extern 0 (safe (cf _)) => apply safe_gets : safe.
#[export] Hint Extern 0 (safe now) => apply safe_gets : safe.
#[export] Hint Extern 0 (safe (upd_cli _ _)) => unfold upd_cli : safe.
#[export] Hint Extern 0 (safe (upd_chan _ _)) => unfold upd_chan : safe.
#[export] Hint Extern 0 (safe (upd_con _ _)) => apply safe_modify : safe.
#[export] Hint Extern 0 (safe (fun _ => Ok _ _)) => (intros ?; discriminate) : safe.
#[export] Hint Extern 0 (safe (match ?t with _ => _ end)) => destruct t : safe.
#[export] Hint Extern 0 (Forall safe nil) => constructor : safe.
#[export] Hint Extern 0 (Forall safe (_ :: _)) => constructor : safe.
#[export] Hint Extern 0 (Forall safe (map _ _)) => apply safe_map : safe.
#[export] Hint Extern 0 (Forall safe (_ ++ _)) => apply safe_app : safe.
#[export] Hint Extern 0 (Forall safe (match ?t with _ => _ end)) => destruct t : safe.
Ltac sf := auto 100 with safe nocore.
