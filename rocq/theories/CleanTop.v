(** C08: every history writes legal lines only. *)
From Coq Require Import List Ascii String ZArith NArith Bool Lia Arith.
From Verif Require Import Bytes Strl Match Lists Hash ParseReq State Messages Monad Core Write Info Chan Mode Msg Login Oper Server Dispatch Conn
  Clean0 CleanRec Clean CleanTac CleanLists CleanParseReq CleanCore CleanWrite CleanInfo CleanChan CleanMode CleanMsg CleanLogin CleanOper CleanServer CleanDispatch CleanConn.
Import ListNotations.
Local Open Scope m_scope.

Definition one_line (b : bytes) : Prop := ~ In CR b /\ ~ In LF b.
(** the only strings in events that the server takes for what they are: the text of an address and the
    result of the resolver.  Data received from clients and servers is arbitrary. *)
Definition plain_names (e : event) : Prop :=
  match e with
  | E_Accept _ ip _ => one_line ip
  | E_Resolved _ host => one_line host
  | E_NewServer _ _ ip => one_line ip
  | _ => True
  end.

Lemma one_line_clv : forall b, one_line b <-> clv b.
Proof.
  intro b. unfold clv, Cl_bytes, Cl_list. rewrite Forall_forall. split.
  - intros [H1 H2] c Hc. split; intros ->; auto.
  - intros H. split; intro X; apply H in X; destruct X; auto.
Qed.
Lemma plain_clv : forall e, plain_names e -> clv e.
Proof. intros [] H; try exact I; apply one_line_clv; exact H. Qed.

Lemma clv_repeat : forall A (C : Cl A) (a : A) n, clv a -> clv (repeat a n).
Proof. intros A C a n H. induction n; [apply clv_nil|]. apply clv_cons; auto. Qed.
Lemma clv_init : forall c sv t r, clv c -> clv sv -> clv (init_state c sv t r).
Proof.
  intros c sv t r Hc Hs.
  assert (Q : clv (set_info (cf_cloakusertonick c) (cf_serverinfo c) (set_id (cf_cloakusertonick c) (cf_servername c) (set_cl_host (cf_hostname c) (set_cl_hops 0 (set_cl_mytoken 1
              (set_cl_introducer (Some This_Server) (set_cl_type T_SERVER new_client)))))))) by cl_all.
  unfold init_state. cbv zeta. constructor; cbn [s_conf s_heap s_chans s_members s_conns s_glines s_klines s_servers s_whowas s_out]; try apply clv_nil; try exact Hc.
  - apply clv_cons; [|apply clv_nil]. split; [exact I|exact Q].
  - apply clv_firstn. apply clv_app; [exact Hs|]. apply clv_repeat. cl_all.
  - apply clv_repeat. apply clv_mkWhowas; cl_all.
Qed.
Lemma all_legal : forall c servers t r evs s s', clean_conf c -> Forall clean_cserver servers -> boot c servers t r = Ok tt s ->
  Forall plain_names evs -> run evs s = Ok tt s' -> forall i l, In (i, l) (s_out s') -> legal_line l.
Proof.
  intros c sv t r evs s s' Hc Hs Hb He Hr i l Hl.
  assert (S0 : clv (init_state c sv t r)) by (apply clv_init; assumption).
  destruct (clv_Channel_InitPredefined _ _ _ S0 Hb) as [S1 _].
  assert (E : clv evs) by (unfold clv, Cl_list; rewrite Forall_forall in *; intros e X; apply plain_clv; auto).
  destruct (clv_run evs E s tt s' S1 Hr) as [S2 _]. pose proof (k_s_out _ S2) as K. rewrite Forall_forall in K. exact (K _ Hl).
Qed.
