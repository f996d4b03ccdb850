(** Proof infrastructure: what a computation can do to the state.

    [rel X m]: every run of [m] that ends normally is an [X]-step.  [wr] is the relation of the
    functions that only write to connections ("write layer"): lines are appended to the output of
    open connections, counters, marks and penalties of connections change, and a missing cloaked
    host name is computed. *)
From Coq Require Import List Ascii String ZArith NArith Bool Lia.
From Coq Require Import Relations RelationClasses.
From Verif Require Import Bytes Match Lists Hash ParseReq State Messages Monad Core Write.
Import ListNotations.
Local Open Scope m_scope.

Definition rel (X : state -> state -> Prop) {A} (m : M A) : Prop :=
  forall s a s', m s = Ok a s' -> X s s'.

(** ---- inversion of computations ---- *)
Lemma bind_ok : forall A B (m : M A) (k : A -> M B) s b s2,
  bind m k s = Ok b s2 -> exists a s1, m s = Ok a s1 /\ k a s1 = Ok b s2.
Proof.
  unfold bind. intros A B m k s b s2 H. destruct (m s) as [a s1|w] eqn:E; [|discriminate].
  exists a, s1. auto.
Qed.
Lemma ret_ok : forall A (a : A) s b s', ret a s = Ok b s' -> b = a /\ s' = s.
Proof. unfold ret. intros. inversion H. auto. Qed.
Lemma gets_ok : forall A (f : state -> A) s b s', gets f s = Ok b s' -> b = f s /\ s' = s.
Proof. unfold gets. intros. inversion H. auto. Qed.
Lemma modify_ok : forall f s b s', modify f s = Ok b s' -> s' = f s.
Proof. unfold modify. intros. inversion H. auto. Qed.
Lemma cli_ok : forall h s c s', cli h s = Ok c s' -> assoc h (s_heap s) = Some c /\ s' = s.
Proof. unfold cli. intros. destruct (assoc h (s_heap s)); inversion H; auto. Qed.
Lemma chan_ok : forall h s c s', chan h s = Ok c s' -> assoc h (s_chans s) = Some c /\ s' = s.
Proof. unfold chan. intros. destruct (assoc h (s_chans s)); inversion H; auto. Qed.
Lemma con_ok : forall i s c s', con i s = Ok c s' ->
  s' = s /\ (assoc i (s_conns s) = Some c \/ (assoc i (s_conns s) = None /\ c = closed_conn (s_now s))).
Proof. unfold con. intros. destruct (assoc i (s_conns s)); inversion H; auto. Qed.
Lemma assertM_ok : forall b s a s', assertM b s = Ok a s' -> b = true /\ s' = s.
Proof. unfold assertM. intros. destruct b; inversion H; auto. Qed.
Lemma nonnull_ok : forall A (o : option A) s a s', nonnull o s = Ok a s' -> o = Some a /\ s' = s.
Proof. unfold nonnull. intros. destruct o; inversion H; auto. Qed.
Lemma bad_ok : forall A w s (a : A) s', bad w s = Ok a s' -> False.
Proof. unfold bad. discriminate. Qed.
Lemma upd_cli_ok : forall h f s a s', upd_cli h f s = Ok a s' ->
  exists c, assoc h (s_heap s) = Some c /\ s' = set_s_heap (aupd h f (s_heap s)) s.
Proof.
  unfold upd_cli. intros. apply bind_ok in H. destruct H as (c & s1 & H1 & H2).
  apply cli_ok in H1. destruct H1; subst. apply modify_ok in H2. eauto.
Qed.
Lemma upd_chan_ok : forall h f s a s', upd_chan h f s = Ok a s' ->
  exists c, assoc h (s_chans s) = Some c /\ s' = set_s_chans (aupd h f (s_chans s)) s.
Proof.
  unfold upd_chan. intros. apply bind_ok in H. destruct H as (c & s1 & H1 & H2).
  apply chan_ok in H1. destruct H1; subst. apply modify_ok in H2. eauto.
Qed.
Lemma upd_con_ok : forall i f s a s', upd_con i f s = Ok a s' -> s' = set_s_conns (aupd i f (s_conns s)) s.
Proof. unfold upd_con. intros. apply modify_ok in H. auto. Qed.
Lemma is_type_ok : forall h t s b s', is_type h t s = Ok b s' ->
  s' = s /\ exists c, assoc h (s_heap s) = Some c /\ b = ctype_eqb (cl_type c) t.
Proof.
  unfold is_type. intros. apply bind_ok in H. destruct H as (c & s1 & H1 & H2).
  apply cli_ok in H1. destruct H1; subst. apply ret_ok in H2. destruct H2; subst. eauto.
Qed.
Lemma Client_Type_ok : forall h s b s', Client_Type h s = Ok b s' ->
  s' = s /\ exists c, assoc h (s_heap s) = Some c /\ b = cl_type c.
Proof.
  unfold Client_Type. intros. apply bind_ok in H. destruct H as (c & s1 & H1 & H2).
  apply cli_ok in H1. destruct H1; subst. apply ret_ok in H2. destruct H2; subst. eauto.
Qed.
Lemma Client_Conn_ok : forall h s b s', Client_Conn h s = Ok b s' ->
  s' = s /\ exists c, assoc h (s_heap s) = Some c /\ b = cl_conn c.
Proof.
  unfold Client_Conn. intros. apply bind_ok in H. destruct H as (c & s1 & H1 & H2).
  apply cli_ok in H1. destruct H1; subst. apply ret_ok in H2. destruct H2; subst. eauto.
Qed.
Lemma ctype_eqb_eq : forall a b, ctype_eqb a b = true <-> a = b.
Proof. destruct a, b; simpl; split; congruence. Qed.
Lemma ctype_eqb_refl : forall a, ctype_eqb a a = true.
Proof. destruct a; reflexivity. Qed.

(** [minv H]: take a run apart. *)
Ltac minv1 H :=
  lazymatch type of H with
  | bind _ _ _ = Ok _ _ =>
      let H1 := fresh "Hm" in let a := fresh "a" in let s1 := fresh "s" in
      apply bind_ok in H; destruct H as (a & s1 & H1 & H); try minv1 H1
  | ret _ _ = Ok _ _ => apply ret_ok in H; destruct H as [? ?]; subst
  | skip _ = Ok _ _ => apply ret_ok in H; destruct H as [? ?]; subst
  | gets _ _ = Ok _ _ => apply gets_ok in H; destruct H as [? ?]; subst
  | cf _ _ = Ok _ _ => unfold cf in H; apply gets_ok in H; destruct H as [? ?]; subst
  | now _ = Ok _ _ => unfold now in H; apply gets_ok in H; destruct H as [? ?]; subst
  | Clients _ = Ok _ _ => unfold Clients in H; apply gets_ok in H; destruct H as [? ?]; subst
  | Chans _ = Ok _ _ => unfold Chans in H; apply gets_ok in H; destruct H as [? ?]; subst
  | modify _ _ = Ok _ _ => apply modify_ok in H; subst
  | cli _ _ = Ok _ _ => apply cli_ok in H; destruct H as [? ?]; subst
  | chan _ _ = Ok _ _ => apply chan_ok in H; destruct H as [? ?]; subst
  | con _ _ = Ok _ _ => apply con_ok in H; destruct H as [? ?]; subst
  | is_type _ _ _ = Ok _ _ => apply is_type_ok in H; destruct H as [? [? [? ?]]]; subst
  | Client_Type _ _ = Ok _ _ => apply Client_Type_ok in H; destruct H as [? [? [? ?]]]; subst
  | Client_Conn _ _ = Ok _ _ => apply Client_Conn_ok in H; destruct H as [? [? [? ?]]]; subst
  | assertM _ _ = Ok _ _ => apply assertM_ok in H; destruct H as [? ?]; subst
  | nonnull _ _ = Ok _ _ => apply nonnull_ok in H; destruct H as [? ?]; subst
  | bad _ _ = Ok _ _ => exfalso; exact (bad_ok _ _ _ _ _ H)
  | upd_con _ _ _ = Ok _ _ => apply upd_con_ok in H; subst
  | upd_cli _ _ _ = Ok _ _ => apply upd_cli_ok in H; destruct H as [? [? ?]]; subst
  | upd_chan _ _ _ = Ok _ _ => apply upd_chan_ok in H; destruct H as [? [? ?]]; subst
  end.
Ltac minv H := repeat minv1 H.
(** in all hypotheses *)
Ltac minvs := repeat match goal with H : _ _ = Ok _ _ |- _ => progress (minv1 H) end.

(** ---- [rel] and the operators ---- *)
Section RelOps.
Context {X : state -> state -> Prop} {PO : PreOrder X}.

Lemma rel_bind : forall A B (m : M A) (k : A -> M B), rel X m -> (forall a, rel X (k a)) -> rel X (bind m k).
Proof.
  intros A B m k Hm Hk s b s2 H. apply bind_ok in H. destruct H as (a & s1 & H1 & H2).
  transitivity s1; [eapply Hm | eapply Hk]; eauto.
Qed.
Lemma rel_ret : forall A (a : A), rel X (ret a).
Proof. intros A a s b s' H. apply ret_ok in H. destruct H; subst. reflexivity. Qed.
Lemma rel_skip : rel X skip.
Proof. apply rel_ret. Qed.
Lemma rel_gets : forall A (f : state -> A), rel X (gets f).
Proof. intros A f s b s' H. apply gets_ok in H. destruct H; subst. reflexivity. Qed.
Lemma rel_cf : forall A (f : conf -> A), rel X (cf f).
Proof. intros. apply rel_gets. Qed.
Lemma rel_now : rel X now.
Proof. apply rel_gets. Qed.
Lemma rel_cli : forall h, rel X (cli h).
Proof. intros h s b s' H. apply cli_ok in H. destruct H; subst. reflexivity. Qed.
Lemma rel_chan : forall h, rel X (chan h).
Proof. intros h s b s' H. apply chan_ok in H. destruct H; subst. reflexivity. Qed.
Lemma rel_con : forall h, rel X (con h).
Proof. intros h s b s' H. apply con_ok in H. destruct H; subst. reflexivity. Qed.
Lemma rel_assertM : forall b, rel X (assertM b).
Proof. intros h s b s' H. apply assertM_ok in H. destruct H; subst. reflexivity. Qed.
Lemma rel_nonnull : forall A (o : option A), rel X (nonnull o).
Proof. intros A o s b s' H. apply nonnull_ok in H. destruct H; subst. reflexivity. Qed.
Lemma rel_bad : forall A w, rel X (@bad A w).
Proof. intros A w s b s' H. destruct (bad_ok _ _ _ _ _ H). Qed.
Lemma rel_whenM : forall b m, rel X m -> rel X (whenM b m).
Proof. unfold whenM. intros. destruct b; auto. apply rel_ret. Qed.
Lemma rel_andM : forall a b, rel X a -> rel X b -> rel X (andM a b).
Proof. unfold andM. intros. apply rel_bind; auto. intros []; auto. apply rel_ret. Qed.
Lemma rel_orM : forall a b, rel X a -> rel X b -> rel X (orM a b).
Proof. unfold orM. intros. apply rel_bind; auto. intros []; auto. apply rel_ret. Qed.
Lemma rel_notM : forall a, rel X a -> rel X (notM a).
Proof. unfold notM. intros. apply rel_bind; auto. intros. apply rel_ret. Qed.
Lemma rel_mfor : forall A (l : list A) f, (forall a, rel X (f a)) -> rel X (mfor l f).
Proof. induction l as [|a l IH]; simpl; intros. apply rel_ret. apply rel_bind; auto. Qed.
Lemma rel_mfold : forall A B (f : B -> A -> M B) l b, (forall b a, rel X (f b a)) -> rel X (mfold f l b).
Proof. induction l as [|a l IH]; simpl; intros. apply rel_ret. apply rel_bind; auto. Qed.
Lemma rel_mloop : forall A R (l : list A) (f : A -> M (option R)), (forall a, rel X (f a)) -> rel X (mloop l f).
Proof.
  induction l as [|a l IH]; simpl; intros. apply rel_ret. apply rel_bind; auto.
  intros []; auto. apply rel_ret.
Qed.
Lemma rel_mfind : forall A (f : A -> M bool) l, (forall a, rel X (f a)) -> rel X (mfind f l).
Proof.
  induction l as [|a l IH]; simpl; intros. apply rel_ret. apply rel_bind; auto.
  intros []; auto. apply rel_ret.
Qed.
Lemma rel_mcount : forall A (f : A -> M bool) l, (forall a, rel X (f a)) -> rel X (mcount f l).
Proof.
  induction l as [|a l IH]; simpl; intros. apply rel_ret. repeat (apply rel_bind; auto; intros).
  apply rel_ret.
Qed.
Lemma rel_mseq : forall A (l : list (M A)), Forall (rel X) l -> rel X (mseq l).
Proof.
  induction 1; simpl. apply rel_ret. repeat (apply rel_bind; auto; intros). apply rel_ret.
Qed.
Lemma rel_mseq_map : forall A B (f : A -> M B) l, (forall a, rel X (f a)) -> rel X (mseq (map f l)).
Proof. intros. apply rel_mseq. rewrite Forall_map. apply Forall_forall. auto. Qed.
Lemma rel_opt : forall A (o : option A) f, (forall a, rel X (f a)) -> rel X (opt o f).
Proof. intros. destruct o; simpl; auto. apply rel_ret. Qed.
Lemma rel_vsn : forall n f args, Forall (rel X) args -> rel X (vsn n f args).
Proof. intros. unfold vsn. apply rel_bind. apply rel_mseq; auto. intros. apply rel_ret. Qed.
End RelOps.

Lemma rel_mono : forall (X Y : state -> state -> Prop) A (m : M A),
  (forall s s', X s s' -> Y s s') -> rel X m -> rel Y m.
Proof. unfold rel. eauto. Qed.

Create HintDb rel discriminated.
#[export] Hint Constants Opaque : rel.
#[export] Hint Variables Opaque : rel.
#[export] Hint Extern 0 (Forall _ nil) => apply Forall_nil : rel.
#[export] Hint Extern 0 (Forall _ (_ :: _)) => apply Forall_cons : rel.
#[export] Hint Extern 0 (rel _ (bind _ _)) => (apply rel_bind; [|intro]) : rel.
#[export] Hint Extern 0 (rel _ (ret _)) => apply rel_ret : rel.
#[export] Hint Extern 0 (rel _ skip) => apply rel_skip : rel.
#[export] Hint Extern 0 (rel _ (gets _)) => apply rel_gets : rel.
#[export] Hint Extern 0 (rel _ (cf _)) => apply rel_cf : rel.
#[export] Hint Extern 0 (rel _ now) => apply rel_now : rel.
#[export] Hint Extern 0 (rel _ (cli _)) => apply rel_cli : rel.
#[export] Hint Extern 0 (rel _ (chan _)) => apply rel_chan : rel.
#[export] Hint Extern 0 (rel _ (con _)) => apply rel_con : rel.
#[export] Hint Extern 0 (rel _ (assertM _)) => apply rel_assertM : rel.
#[export] Hint Extern 0 (rel _ (nonnull _)) => apply rel_nonnull : rel.
#[export] Hint Extern 0 (rel _ (bad _)) => apply rel_bad : rel.
#[export] Hint Extern 0 (rel _ (whenM _ _)) => apply rel_whenM : rel.
#[export] Hint Extern 0 (rel _ (andM _ _)) => apply rel_andM : rel.
#[export] Hint Extern 0 (rel _ (orM _ _)) => apply rel_orM : rel.
#[export] Hint Extern 0 (rel _ (notM _)) => apply rel_notM : rel.
#[export] Hint Extern 0 (rel _ (mfor _ _)) => (apply rel_mfor; intro) : rel.
#[export] Hint Extern 0 (rel _ (mfold _ _ _)) => (apply rel_mfold; intros ? ?) : rel.
#[export] Hint Extern 0 (rel _ (mloop _ _)) => (apply rel_mloop; intro) : rel.
#[export] Hint Extern 0 (rel _ (mfind _ _)) => (apply rel_mfind; intro) : rel.
#[export] Hint Extern 0 (rel _ (mcount _ _)) => (apply rel_mcount; intro) : rel.
#[export] Hint Extern 0 (rel _ (mseq (map _ _))) => (apply rel_mseq_map; intro) : rel.
#[export] Hint Extern 1 (rel _ (mseq _)) => apply rel_mseq : rel.
#[export] Hint Extern 0 (rel _ (opt _ _)) => (apply rel_opt; intro) : rel.
#[export] Hint Extern 0 (rel _ (vsn _ _ _)) => apply rel_vsn : rel.
#[export] Hint Extern 3 (rel _ (if ?b then _ else _)) => destruct b : rel.
#[export] Hint Extern 3 (rel _ (match ?x with _ => _ end)) => destruct x : rel.
#[export] Hint Extern 2 (rel _ (let x := ?v in _)) => (let y := fresh in set (y := v); cbv zeta; subst y) : rel.

Ltac rel_auto := solve [auto 200 with rel nocore].
(** for debugging: stops at what cannot be solved *)
Ltac rel_go := repeat (first [ solve [auto 8 with rel nocore]
  | apply Forall_nil | apply Forall_cons
  | apply rel_bind; [|intro] | apply rel_ret | apply rel_gets | apply rel_cf | apply rel_now | apply rel_cli
  | apply rel_chan | apply rel_con | apply rel_assertM | apply rel_nonnull | apply rel_bad | apply rel_whenM
  | apply rel_andM | apply rel_orM | apply rel_notM | apply rel_mfor; intro | apply rel_mfold; intros ? ?
  | apply rel_mloop; intro | apply rel_mfind; intro | apply rel_mcount; intro | apply rel_mseq_map; intro
  | apply rel_opt; intro | apply rel_vsn
  | match goal with
    | |- rel _ (if ?b then _ else _) => destruct b
    | |- rel _ (match ?b with _ => _ end) => destruct b
    end ]).

(** ---- the write layer ---- *)

(** [c'] differs from [c] only in counters, the mark and the time of the last message. *)
Record cminor (c c' : conn) : Prop := mk_cminor {
  cm_open : co_open c' = co_open c; cm_ip : co_ip c' = co_ip c; cm_host : co_host c' = co_host c;
  cm_pwd : co_pwd c' = co_pwd c; cm_rbuf : co_rbuf c' = co_rbuf c; cm_signon : co_signon c' = co_signon c;
  cm_lastdata : co_lastdata c' = co_lastdata c; cm_lastping : co_lastping c' = co_lastping c;
  cm_delay : co_delaytime c' = co_delaytime c; cm_closing : co_closing c' = co_closing c;
  cm_connecting : co_connecting c' = co_connecting c; cm_rfc1459 : co_rfc1459 c' = co_rfc1459 c;
  cm_client : co_client c' = co_client c; cm_authping : co_auth_ping c' = co_auth_ping c;
  cm_bps : co_bps c' = co_bps c; cm_bin : co_bytes_in c' = co_bytes_in c }.

Definition set_con (i : connid) (f : conn -> conn) (s : state) : state := set_s_conns (aupd i f (s_conns s)) s.
Definition set_cli (h : handle) (f : client -> client) (s : state) : state := set_s_heap (aupd h f (s_heap s)) s.
Definition set_chan (h : chandle) (f : channel -> channel) (s : state) : state := set_s_chans (aupd h f (s_chans s)) s.

(** the cloaked host name that is stored when it is needed first *)
Definition cloak_name (s : state) (c : client) : bytes :=
  if negb (beq (cf_cloakhostmodex (s_conf s)) []) then cloak CLIENT_HOST_LEN (cf_cloakhostmodex (s_conf s)) (cl_host c) (cf_cloaksalt (s_conf s)) CLIENT_HOST_LEN
  else match cl_introducer c with
       | Some i => match assoc i (s_heap s) with Some d => strlcpy CLIENT_HOST_LEN (match cl_id d with [] => B "*" | _ => cl_id d end) | None => [] end
       | None => []
       end.
Inductive wstep : state -> state -> Prop :=
| ws_out : forall s i c t w, assoc i (s_conns s) = Some c -> co_open c = true ->
    wstep s (set_s_out ((i, wire t) :: s_out s) (set_s_wcounter w s))
| ws_minor : forall s i f, (forall c, cminor c (f c)) -> wstep s (set_con i f s)
| ws_flags : forall s, wstep s (set_s_conns (map (fun p => (fst p, set_co_flag 0 (snd p))) (s_conns s)) s)
| ws_pen : forall s i n, (0 <= n)%Z ->
    wstep s (set_con i (fun c => set_co_delaytime (penalty (cf_maxpenalty (s_conf s)) (s_now s) (co_delaytime c) n) c) s)
| ws_cloak : forall s h c x, assoc h (s_heap s) = Some c -> (List.length x < CLIENT_HOST_LEN)%nat ->
    cl_cloaked c = None -> x = cloak_name s c ->
    wstep s (set_cli h (set_cl_cloaked (Some x)) s).

Definition wr : state -> state -> Prop := clos_refl_trans state wstep.
#[export] Instance wr_preorder : PreOrder wr.
Proof. split; [intro; apply rt_refl | intros a b c ? ?; eapply rt_trans; eauto]. Qed.

(** relations that contain the write layer *)
Class WrSub (X : state -> state -> Prop) : Prop := wr_sub : forall s s', wstep s s' -> X s s'.
#[export] Instance wrsub_wr : WrSub wr.
Proof. intros s s' H. apply rt_step. auto. Qed.
Lemma wr_incl : forall X {PO : PreOrder X} {WS : WrSub X} s s', wr s s' -> X s s'.
Proof. intros X PO WS s s' H. induction H; [apply wr_sub; auto | reflexivity | etransitivity; eauto]. Qed.
