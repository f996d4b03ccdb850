(** What happens to the connections: the read buffer and the penalty. *)
From Coq Require Import List Ascii String ZArith NArith Bool Lia Arith.
From Coq Require Import Relations RelationClasses.
From Verif Require Import Bytes Match Lists Hash ParseReq State Messages Monad Core Write Info Chan Mode Msg Login Oper Server Dispatch Conn.
From Verif Require Import Rel RelWrite RelInfo RelBase RelChan RelSrv RelInit RelKey RelCmd RelComp WF RelGone Frame Inv2 Inv4 Live Spec Observ.
Import ListNotations.
Local Open Scope m_scope.

(** every connection of [s'] is one of [s], related by [R]; the clock has not moved *)
Definition byR (R : conn -> conn -> Prop) (s s' : state) : Prop :=
  s_now s' = s_now s /\ forall i c', assoc i (s_conns s') = Some c' -> exists c, assoc i (s_conns s) = Some c /\ R c c'.
(** what any command may do to a connection *)
Record quiet (R : conn -> conn -> Prop) : Prop := mk_quiet {
  q_refl : forall c, R c c; q_trans : forall a b c, R a b -> R b c -> R a c;
  q_minor : forall c c', cminor c c' -> R c c';
  q_pen : forall m t n c, (0 <= n)%Z -> R c (set_co_delaytime (penalty m t (co_delaytime c) n) c);
  q_cconn : forall c c', cconn c c' -> R c c';
  q_closing : forall c, R c (set_co_closing true c); q_closed : forall c, R c (set_co_open false c) }.
Class Quiet (R : conn -> conn -> Prop) : Prop := quiet_R : quiet R.
Class Readable (R : conn -> conn -> Prop) : Prop := read_R : forall c c', cread c c' -> R c c'.

Section Q.
Context {R : conn -> conn -> Prop} {QR : Quiet R} {s0 : state}.
Let I := byR R s0.
Lemma byR_set : forall i f s, (forall c, R c (f c)) -> I s -> I (set_con i f s).
Proof.
  intros i f s H [T B]. split; [exact T|]. intros j c' Hc. unfold set_con in Hc. cbn [s_conns set_s_conns] in Hc. rewrite assoc_aupd in Hc. destruct (Nat.eqb i j); [|eauto].
  destruct (assoc j (s_conns s)) as [c|] eqn:E; [|discriminate]. cbn in Hc. inversion Hc; subst c'. destruct (B _ _ E) as (c0 & H0 & H1). exists c0. split; auto. eapply q_trans; eauto.
Qed.
Lemma byR_same : forall s s', s_conns s' = s_conns s -> s_now s' = s_now s -> I s -> I s'.
Proof. intros s s' E N [T B]. split; [congruence|]. intros j c' Hc. rewrite E in Hc. eauto. Qed.
Lemma byR_wstep : forall s s', wstep s s' -> I s -> I s'.
Proof.
  intros s s' H. destruct H.
  - apply byR_same; reflexivity.
  - apply byR_set. intro c. apply q_minor; auto.
  - intros [T B]. split; [exact T|]. intros j c' Hc. cbn [s_conns set_s_conns] in Hc. rewrite assoc_map in Hc. destruct (assoc j (s_conns s)) as [c|] eqn:E; [|discriminate]. cbn in Hc. inversion Hc; subst c'.
    destruct (B _ _ E) as (c0 & H0 & H1). exists c0. split; auto. eapply q_trans; eauto. apply q_minor; auto. split; reflexivity.
  - apply byR_set. intro c. apply q_pen; auto.
  - apply byR_same; reflexivity.
Qed.
Lemma byR_wr : forall s s', wr s s' -> I s -> I s'.
Proof. intros s s' H. induction H; auto. apply byR_wstep; auto. Qed.
End Q.
#[export] Instance byR_wrsub : forall R (QR : Quiet R) s0, WrSub (also wf (byR R s0)).
Proof. intros R QR s0. apply also_wr; [exact _|]. intros s s' H _ B. eapply byR_wstep; eauto. Qed.
Definition quietlab (l : lab) : bool := negb (compo l) && match l with L_accept | L_newserver | L_read | L_remove | L_destroy | L_close | L_register | L_time => false | _ => true end.
Lemma byR_step : forall R (QR : Quiet R) s0 l s s', quietlab l = true -> wf s -> pstep l s s' -> byR R s0 s -> byR R s0 s'.
Proof.
  intros R QR s0 l s s' T W H.
  destruct l; try discriminate T; try (inversion H; subst; apply byR_same; reflexivity); try (inversion H; subst; apply byR_same; unfold set_chan, if_odd; ifs; reflexivity).
  - apply type_eq in H. destruct H as (h & c & t & tok & a & b & _ & _ & _ & ->). apply byR_same; stcbn; ifs; reflexivity.
  - apply type0_type, type_eq in H. destruct H as (h & c & t & tok & a & b & _ & _ & _ & ->). apply byR_same; stcbn; ifs; reflexivity.
  - apply new_eq in H; auto. destruct H as (c & a & b & _ & ->). apply byR_same; reflexivity.
  - apply new_eq in H; auto. destruct H as (c & a & b & _ & ->). apply byR_same; reflexivity.
  - apply create_eq in H. destruct H as (n & h & c & _ & _ & _ & ->). apply byR_same; stcbn; ifs; reflexivity.
  - apply create_any_eq in H. destruct H as (n & _ & ->). apply byR_same; stcbn; ifs; reflexivity.
  - inversion H; subst. apply addmb_eq in H1. destruct H1 as (c & cc & _ & _ & ->). apply byR_same; stcbn; ifs; reflexivity.
  - apply whowas_eq in H. destruct H as (s1 & Wr & E). intro B. eapply byR_same; [| |eapply byR_wr; eauto]; destruct E as [-> | (sl & e & ->)]; reflexivity.
  - inversion H; subst. apply byR_set. intro c. apply q_cconn; auto.
  - inversion H; subst; apply byR_set; intro c; [apply q_closing|apply q_closed]; auto.
  - inversion H; subst. intros [T' B]. split; [exact T'|]. intros j c' Hc. cbn [s_conns set_s_conns set_s_numconn] in Hc. rewrite assoc_adel in Hc. destruct (Nat.eqb j i); [discriminate|]. eauto.
  - apply free_eq in H. destruct H as (h & c & _ & _ & ->). apply byR_same; stcbn; ifs; reflexivity.
Qed.
Lemma byR_ps : forall R (QR : Quiet R) s0 l, quietlab l = true -> PS l (pres wf) -> PS l (also wf (byR R s0)).
Proof. intros R QR s0 l T P s s' H W. split; [exact (P s s' H W)|]. intro E. eapply byR_step; eauto. Qed.
#[export] Hint Extern 1 (PS _ (also wf (byR _ _))) => (apply byR_ps; [exact _|reflexivity|exact _]) : typeclass_instances.
#[export] Instance byR_read : forall R (QR : Quiet R) (RR : Readable R) s0, PS L_read (also wf (byR R s0)).
Proof.
  intros R QR RR s0 s s' H W. split; [exact (wf_read s s' H W)|]. inversion H; subst. apply byR_set. intro c. apply RR. auto.
Qed.
Lemma Parse_Request_by : forall R, Quiet R -> forall i text s b s', Parse_Request i text s = Ok b s' -> wf s -> wf s' /\ byR R s s'.
Proof.
  intros R QR i text s b s' H W. assert (K : rel (also wf (byR R s)) (Parse_Request i text)) by apply Parse_Request_rel. destruct (K _ _ _ H W) as [A B]. split; auto. apply B. split; auto. intros j c' Hc. exists c'. split; auto. apply q_refl; auto.
Qed.
Lemma Conn_Close_by : forall R, Quiet R -> forall i log fwd inform s s', Conn_Close i log fwd inform s = Ok tt s' -> wf s -> wf s' /\ byR R s s'.
Proof.
  intros R QR i log fwd inform s s' H W. assert (K : rel (also wf (byR R s)) (Conn_Close i log fwd inform)) by apply Conn_Close_rel. destruct (K _ _ _ H W) as [A B]. split; auto. apply B. split; auto. intros j c' Hc. exists c'. split; auto. apply q_refl; auto.
Qed.
