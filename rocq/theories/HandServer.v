(** Server links: a connection becomes one only with the name and the password of a configured server (C48). *)
From Coq Require Import List Ascii String ZArith NArith Bool Lia Arith.
From Coq Require Import Relations RelationClasses.
From Verif Require Import Bytes Match MatchSpec MatchProofs Lists ListsProofs Hash ParseReq State Messages Monad Core Write Info Chan Mode Msg Login Oper Server Dispatch Conn.
From Verif Require Import Rel RelWrite RelInfo RelBase RelChan RelSrv RelInit RelKey RelCmd RelComp WF RelGone Frame Tree Inv1 Inv2 Inv4 Spec Observ Unch HandOper HandPrefix HandLine Frames Live Attrib HandGain HandUser HandChan HandJoin HandLogin SpecMore.
Import ListNotations.
Local Open Scope m_scope.

Lemma find_idx_some : forall A (f : A -> bool) l n, find_idx f l = Some n -> exists x, nth_error l n = Some x /\ f x = true.
Proof.
  intros A f l. induction l as [|a l IH]; intros n H; cbn [find_idx] in H; [discriminate|]. destruct (f a) eqn:E; [injection H as <-; exists a; auto|]. destruct (find_idx f l) as [m|] eqn:F; [|discriminate]. injection H as <-. destruct (IH m eq_refl) as (x & X). exists x. auto.
Qed.
#[local] Hint Extern 0 (rel _ (Conn_Close _ _ _ _)) => apply Conn_Close_rel : rel.
Lemma register_checked : forall h i req s b s' c, wf s -> assoc h (s_heap s) = Some c -> assoc i (s_conns s) <> None -> server_register h i req s = Ok b s' -> (forall s0, also wf (byH tkeep s0) s s') \/
  (exists cn sv, (argc req = 2 \/ argc req = 3) /\ assoc i (s_conns s) = Some cn /\ In sv (s_servers s) /\ same_name (arg req 0) (sv_name sv) /\ given_password cn = sv_pwd_in sv).
Proof.
  intros h i req s b s' c W A CNE H. unfold server_register in H. cbv zeta in H. destruct (negb (argc req =? 2) && negb (argc req =? 3)) eqn:EA; [left; intro s0; xlast H|].
  bd H as o s1 H1. unfold find_server in H1. rdgets H1. destruct (find_idx _ _) as [n|] eqn:FI; [|left; intro s0; xlast H]. destruct (find_idx_some _ _ _ _ FI) as (sv0 & NE & EQ).
  bd H as sv s1 H1. unfold sv_at in H1. bd H1 as x s2 H2. rdgets H2. apply nonnull_ok in H1. destruct H1 as [E1 ->]. assert (sv0 = sv) as -> by congruence.
  bd H as pwd s1 H1. unfold Conn_Password in H1. bd H1 as cn s2 H2. apply con_ok in H2. destruct H2 as [-> [CN|[CN _]]]; [|contradiction]. apply ret_ok in H1. destruct H1 as [-> ->].
  destruct (beq _ _) eqn:PW; cbn [negb] in H; [|left; intro s0; xlast H]. right. exists cn, sv. split; [|split; [exact CN|split; [eapply nth_error_In; eauto|split; [apply same_name_iff; exact EQ|apply beq_eq; exact PW]]]].
  apply andb_false_iff in EA. destruct EA as [EA|EA]; apply negb_false_iff, Nat.eqb_eq in EA; auto.
Qed.

Lemma same_cmd : forall x cmd n, In cmd My_Commands -> same_name x (B (cm_name cmd)) -> In n (map cm_name My_Commands) -> same_name x (B n) -> cm_name cmd = n.
Proof.
  intros x cmd n D E1 I E2. apply in_map_iff in I. destruct I as (c & <- & C).
  pose proof distinct_names_ok as K. unfold distinct_names in K. rewrite forallb_forall in K. specialize (K _ C). rewrite forallb_forall in K. specialize (K _ D). apply eqb_prop in K.
  apply String.eqb_eq. rewrite <- K. apply same_name_iff. unfold same_name in *. congruence.
Qed.
(** one line: a client that was no link is none, unless a link sent the line, or it is a proper SERVER command *)
Lemma link_line : forall s i h c text b s', live s -> undisturbed s' -> client_of s i h c -> plain_type (cl_type c) -> Parse_Request i text s = Ok b s' ->
  forall j d d', lookup j (s_heap s) = Some d -> lookup j (s_heap s') = Some d' -> ~ is_link s j -> is_link s' j -> (cl_type c = T_GOTPASS \/ cl_type c = T_GOTPASS_2813) /\ server_login s i text.
Proof.
  intros s i h c text b s' L U' C T H j d d' J J' NL YL. pose proof (live_wf _ L) as W. assert (U : undisturbed s). { eapply undisturbed_incl; [|exact U']. eapply action_grows; eauto. eapply A_line; eauto. }
  assert (TD : cl_type d' <> cl_type d). { intro E. apply NL. exists d. split; auto. destruct YL as (x & X1 & X2). rewrite J' in X1. injection X1 as <-. rewrite <- E. auto. }
  assert (TL : cl_type d' = T_UNKNOWNSERVER \/ cl_type d' = T_SERVER). { destruct YL as (x & X1 & X2). rewrite J' in X1. injection X1 as <-. auto. }
  destruct (login_line _ _ _ _ _ _ _ L U' C T H _ _ _ J J') as [E|[(_ & R & _)|(TT & (args & SY) & _)]]; [contradiction| |].
  { exfalso. revert R TL. clear. intros R TL. inversion R; subst; unfold login_result in *; destruct TL as [TL|TL]; rewrite TL in *; intuition discriminate. }
  split; auto. rewrite lookup_assoc in J, J'.
  assert (F : also wf (byH tkeep s) s s' -> cl_type d' = cl_type d).
  { intro F. destruct (F W) as [_ F1]. destruct (F1 byH_refl) as (_ & _ & F2). destruct (F2 j d') as (d0 & A0 & G); auto. { eapply wf_lt; eauto. } rewrite J in A0. injection A0 as <-. exact G. }
  destruct (line_cases _ _ _ _ _ _ _ C H) as [A|[[Q (req & HN)]|(cmd & req & s1 & R)]].
  - exfalso. apply TD, F. eapply answered_X; [exact _..|exact A].
  - exfalso. destruct T as (T1 & T2 & _). tauto.
  - destruct (cr_prep _ _ _ _ _ _ _ _ _ _ R) as (s2 & W2 & E2). pose proof (prepared_X (also wf (byH tkeep s)) _ _ _ _ _ (cr_prep _ _ _ _ _ _ _ _ _ _ R)) as P. pose proof (cr_in _ _ _ _ _ _ _ _ _ _ R) as CIN. destruct (cr_parse _ _ _ _ _ _ _ _ _ _ R) as (p & PL). pose proof (cr_name _ _ _ _ _ _ _ _ _ _ R) as NM.
    assert (E : cm_name cmd = "SERVER"%string). { destruct SY as (p2 & nm & SY1 & SY2). rewrite PL in SY1. injection SY1 as _ E3 _. rewrite <- E3 in SY2. apply (same_cmd (rq_command req)); auto. cbn. tauto. }
    pose proof (cr_run _ _ _ _ _ _ _ _ _ _ R) as RUN. rewrite (cmd_of "SERVER" IRC_SERVER US_ANY 0 None 0 ltac:(in_cmds) _ CIN E) in RUN. cbn [cm_fun] in RUN.
    pose proof C as [(cn & C0 & C1) C2]. rewrite lookup_assoc in C0, C2. destruct (wr_cli _ _ _ _ W2 C2) as (x & C3). assert (C4 : assoc h (s_heap s1) = Some (set_cl_cloaked x c)) by (subst s1; exact C3).
    destruct (tr_c2h _ (live_itree _ L U) _ _ C0) as (h' & c' & D1 & D2 & D3). rewrite C1 in D1. injection D1 as <-. rewrite C2 in D2. injection D2 as <-.
    unfold IRC_SERVER in RUN. bd RUN as c1 sx Hx. apply cli_ok in Hx. destruct Hx as [Hx ->]. rewrite C4 in Hx. injection Hx as <-. cbn [cl_conn cl_type set_cl_cloaked] in RUN. rewrite D3 in RUN.
    assert (RG : server_register h i req s1 = Ok b s') by (destruct TT as [TT|TT]; rewrite TT in RUN; exact RUN). pose proof (proj1 (P W)) as W1.
    destruct (wr_tabs _ _ W2) as [_ KC]. specialize (KC i). rewrite C0 in KC.
    destruct (register_checked h i req s1 b s' _ W1 C4) as [G|(cn1 & sv & AC & K1 & K2 & K3 & K4)]; auto.
    + subst s1. cbn. destruct (assoc i (s_conns s2)); [discriminate|contradiction].
    + exfalso. apply TD, F. transitivity s1; auto.
    + assert (K1' : assoc i (s_conns s2) = Some cn1) by (subst s1; exact K1). destruct (wr_con_back _ _ _ _ W2 K1') as (cn0 & Q7 & Q8 & _). rewrite C0 in Q7. injection Q7 as <-.
      unfold argc in AC. unfold arg in K3. destruct (rq_args req) as [|nm rest] eqn:RA; [cbn in AC; lia|]. exists nm, rest, cn, sv. split; [exists p, (rq_command req); split; [exact PL|rewrite <- E; exact NM]|].
      split; [cbn in AC; lia|]. split; [rewrite lookup_assoc; auto|]. split; [assert (ES : s_servers s1 = s_servers s) by (subst s1; cbn; apply (w_servers _ _ (wr_same _ _ W2))); rewrite <- ES; auto|]. split; auto. unfold given_password in *. rewrite <- Q8. exact K4.
Qed.

Lemma link_dec : forall s h, {is_link s h} + {~ is_link s h}.
Proof.
  intros s h. unfold is_link. destruct (lookup h (s_heap s)) as [c|]; [|right; intros (x & E & _); discriminate].
  destruct (ctype_eqb (cl_type c) T_UNKNOWNSERVER) eqn:T1; [left; exists c; split; auto; left; apply ctype_eqb_eq; auto|]. destruct (ctype_eqb (cl_type c) T_SERVER) eqn:T2; [left; exists c; split; auto; right; apply ctype_eqb_eq; auto|].
  right. intros (x & E & K). injection E as <-. destruct K as [K|K]; rewrite K in *; discriminate.
Qed.
Lemma tk_link : forall s s' h, byH tkeep s s' -> ~ (s_next s <= h \/ is_link s h) -> ~ (s_next s' <= h \/ is_link s' h).
Proof.
  intros s s' h (_ & N & F) H [K|(c & K1 & K2)].
  - apply H. left. lia.
  - rewrite lookup_assoc in K1. destruct (F h c) as (c0 & A0 & E); auto. { destruct (le_lt_dec (s_next s) h); [exfalso; auto|auto]. } apply H. right. exists c0. rewrite lookup_assoc. split; auto. unfold tkeep in E. rewrite <- E. auto.
Qed.
Theorem link_event : forall e s s' h, live s -> undisturbed s' -> (exists c, lookup h (s_heap s) = Some c) -> step e s = Ok tt s' -> ~ is_link s h -> is_link s' h ->
  exists i h' c text b s1 s2, live s1 /\ actions s s1 /\ client_of s1 i h' c /\ Parse_Request i text s1 = Ok b s2 /\ actions s2 s' /\
    (~ plain_type (cl_type c) \/ server_login s1 i text).
Proof.
  intros e s s' h L U (d & K) H N Y. assert (Lt : h < s_next s). { rewrite lookup_assoc in K. eapply wf_lt; eauto. apply live_wf; auto. }
  destruct (by_a_line (fun s => s_next s <= h \/ is_link s h)) with (e := e) (s := s) (s' := s') as (i & h' & c & text & b & s1 & s2 & L1 & U1 & A1 & C & P & A2 & N1 & Y1); auto.
  - intro x. destruct (le_dec (s_next x) h); [left; auto|]. destruct (link_dec x h); [left; auto|right; intros [|]; auto].
  - intros x x' Lx Cx Nx. eapply tk_link; [eapply chore_tkeep; eauto; apply live_wf; auto|exact Nx].
  - intros ev x x' Lx Sx Cx Nx. eapply tk_link; [eapply silent_tkeep; eauto; apply live_wf; auto|exact Nx].
  - intros [Q|Q]; [lia|auto].
  - exists i, h', c, text, b, s1, s2. do 5 (split; [assumption|]).
    assert (PT : {plain_type (cl_type c)} + {~ plain_type (cl_type c)}). { unfold plain_type. destruct (cl_type c); first [left; repeat split; discriminate | right; intros (? & ? & ?); congruence]. }
    destruct PT as [PT|PT]; [right|left; exact PT]. assert (U2 : undisturbed s2). { eapply undisturbed_incl; [|exact U]. apply actions_grow; auto. }
    assert (F4 : also wf (byH (fun _ _ => True) s1) s1 s2) by (apply action_rel; eapply A_line; eauto). destruct (F4 (live_wf _ L1)) as [_ F5]. destruct (F5 byH_refl) as (_ & F6 & F7).
    destruct Y1 as [Y1|Y1]; [exfalso; apply N1; left; lia|]. pose proof Y1 as (d' & J' & T'). pose proof J' as J2. rewrite lookup_assoc in J'. destruct (F7 h d') as (d0 & A0 & _); auto. { destruct (le_lt_dec (s_next s1) h); [exfalso; auto|auto]. }
    eapply (link_line s1 i h' c text b s2 L1 U2 C PT P h d0 d'); auto.
Qed.
