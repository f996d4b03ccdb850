(** The write layer leaves everything unchanged, in the sense of Spec.v. *)
From Coq Require Import List Ascii String ZArith NArith Bool Lia Arith.
From Coq Require Import Relations RelationClasses.
From Verif Require Import Bytes Match Lists Hash ParseReq State Messages Monad Core Write Info Chan Mode Msg Login Oper Server Dispatch Conn.
From Verif Require Import Rel RelWrite RelInfo RelBase RelChan RelSrv RelInit RelKey RelCmd Spec Observ.
Import ListNotations.

Record sigs (s s' : state) : Prop := mk_sigs {
  sg_restart : s_sigrestart s' = s_sigrestart s; sg_rehash : s_sigrehash s' = s_sigrehash s;
  sg_out : exists l, s_out s' = l ++ s_out s }.
#[export] Instance sigs_po : PreOrder sigs.
Proof.
  split; [intro s; split; auto; exists []; auto|].
  intros a b c [A1 A2 [l A3]] [B1 B2 [m B3]]. split; try congruence. exists (m ++ l). rewrite B3, A3. apply app_assoc.
Qed.
#[export] Instance sigs_wr : WrSub sigs.
Proof. intros s s' H. destruct H; split; try reflexivity; try (exists []; reflexivity). eexists [_]. reflexivity. Qed.

Lemma wr_unchanged : forall s s', wr s s' -> unchanged s s'.
Proof.
  intros s s' H. pose proof (wr_same _ _ H) as W. pose proof (wr_tabs _ _ H) as [T1 T2]. assert (G : sigs s s') by (eapply wr_incl; eauto; exact _).
  destruct W, G. split; auto.
Qed.

Lemma same_client_refl : forall c, same_client c c.
Proof. intro c. exists (cl_cloaked c). destruct c; reflexivity. Qed.
Lemma same_client_trans : forall a b c, same_client a b -> same_client b c -> same_client a c.
Proof. intros a b c [x ->] [y ->]. exists y. reflexivity. Qed.
Lemma same_conn_refl : forall c, same_conn c c.
Proof. intro c. repeat split. Qed.
Lemma same_conn_trans : forall a b c, same_conn a b -> same_conn b c -> same_conn a c.
Proof. unfold same_conn. intros a b c H1 H2. intuition congruence. Qed.
Lemma alike_refl : forall A (R : A -> A -> Prop), (forall a, R a a) -> forall o, alike R o o.
Proof. intros A R H [a|]; cbn; auto. Qed.
Lemma alike_trans : forall A (R : A -> A -> Prop), (forall a b c, R a b -> R b c -> R a c) -> forall a b c, alike R a b -> alike R b c -> alike R a c.
Proof. intros A R H [a|] [b|] [c|]; cbn; auto; try contradiction. apply H. Qed.
#[export] Instance unchanged_po : PreOrder unchanged.
Proof.
  split.
  - intro s. split; auto; try (intro; apply alike_refl); [apply same_client_refl|apply same_conn_refl|exists []; reflexivity].
  - intros a b c [] []. split; try congruence.
    + intro h. eapply alike_trans; eauto. exact same_client_trans.
    + intro h. eapply alike_trans; eauto. exact same_conn_trans.
    + match goal with H1 : exists l, s_out b = _, H2 : exists l, s_out c = _ |- _ => destruct H1 as [l E1], H2 as [m E2] end. exists (m ++ l). rewrite E2, E1. apply app_assoc.
Qed.
#[export] Instance unchanged_wr : WrSub unchanged.
Proof. intros s s' H. apply wr_unchanged. apply rt_step. auto. Qed.
#[export] Instance unchanged_wc : PS L_wc unchanged.
Proof.
  intros s s' H. inversion H; subst; split; auto; try (intro; apply alike_refl); try apply same_client_refl; try apply same_conn_refl; exists []; reflexivity.
Qed.
