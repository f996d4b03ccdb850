(** The commands of registered users: fewer of the elementary changes are possible, as the parts of
    the handlers for servers and for clients that log in are not reached. *)
From Coq Require Import List Ascii String ZArith NArith Bool Lia Arith.
From Coq Require Import Relations RelationClasses.
From Verif Require Import Bytes Match MatchSpec MatchProofs Lists Hash ParseReq State Messages Monad Core Write Info Chan Mode Msg Login Oper Server Dispatch Conn.
From Verif Require Import Rel RelWrite RelInfo RelBase RelChan RelSrv RelInit RelKey RelCmd RelComp WF RelGone Frame Tree Inv1 Inv2 Inv4 Spec Observ Unch HandOper HandPrefix HandLine Frames.
Import ListNotations.
Local Open Scope m_scope.

Definition isuser (c : client) : Prop := cl_type c = T_USER.
Definition user_pre (h : handle) (req : request) (s : state) : Prop := cmd_pre h req s /\ cfact h isuser s.
(** a command refused for users whatever the rest of its handler does *)
Section U.
Context {X : state -> state -> Prop} {PO : PreOrder X} {WS : WrSub X} {P_id : PS L_id X} {P_whowas : PS L_whowas X} {P_meta : PS L_meta X} {P_conn : PS L_conn X}.
Lemma NICK_user : forall h req, relp (user_pre h req) X (IRC_NICK h req).
Proof.
  intros h req s a s' [_ (c & A & U)] H. unfold isuser in U. unfold IRC_NICK in H. bd H as t s1 H1. apply Client_Type_ok in H1. destruct H1 as (-> & c1 & A1 & ->). rewrite A in A1. injection A1 as <-. rewrite U in H. cbv zeta in H.
  destruct (argc req =? 1); [|xlast H]. bd H as r s1 H1. same H1. destruct r; [xlast H|]. eapply nick_target_user; eauto. exists c. auto.
Qed.
Lemma CAP_user : forall h req, relp (user_pre h req) X (IRC_CAP h req).
Proof.
  intros h req s a s' [_ (c & A & U)] H. unfold isuser in U. unfold IRC_CAP in H. cbv zeta in H.
  destruct (_ && _) in H; [xlast H|]. destruct (_ && _) in H.
  - unfold Handle_CAP_END in H. bd H as t s1 H1. apply Client_Type_ok in H1. destruct H1 as (-> & c1 & A1 & ->). rewrite A in A1. injection A1 as <-. rewrite U in H. cbn [ctype_eqb] in H. rdret H. reflexivity.
  - xlast H.
Qed.
Lemma USER_user : forall h req, relp (user_pre h req) X (IRC_USER h req).
Proof.
  intros h req s a s' [_ (c & A & U)] H. unfold isuser in U. unfold IRC_USER in H. bd H as t s1 H1. apply Client_Type_ok in H1. destruct H1 as (-> & c1 & A1 & ->). rewrite A in A1. injection A1 as <-. rewrite U in H. xlast H.
Qed.
Lemma PASS_user : forall h req, relp (user_pre h req) X (IRC_PASS h req).
Proof.
  intros h req s a s' [_ (c & A & U)] H. unfold isuser in U. unfold IRC_PASS in H. bd H as k s1 H1. apply cli_ok in H1. destruct H1 as [A1 ->]. rewrite A in A1. injection A1 as <-. rewrite U in H. cbn [ctype_eqb andb orb] in H. xlast H.
Qed.
Lemma SERVER_user : forall h req, relp (user_pre h req) X (IRC_SERVER h req).
Proof.
  intros h req s a s' [_ (c & A & U)] H. unfold isuser in U. unfold IRC_SERVER in H. bd H as k s1 H1. apply cli_ok in H1. destruct H1 as [A1 ->]. rewrite A in A1. injection A1 as <-. rewrite U in H. xlast H.
Qed.
Lemma SERVICE_user : forall h req, relp (user_pre h req) X (IRC_SERVICE h req).
Proof.
  intros h req s a s' [_ (c & A & U)] H. unfold isuser in U. unfold IRC_SERVICE in H. bd H as t s1 H1. apply Client_Type_ok in H1. destruct H1 as (-> & c1 & A1 & ->). rewrite A in A1. injection A1 as <-. rewrite U in H. xlast H.
Qed.
Lemma PONG_user : forall h req, relp (user_pre h req) X (IRC_PONG h req).
Proof.
  intros h req s a s' [_ (c & A & U)] H. unfold isuser in U. unfold IRC_PONG in H. bd H as t s1 H1. apply Client_Type_ok in H1. destruct H1 as (-> & c1 & A1 & ->). rewrite A in A1. injection A1 as <-. rewrite U in H. cbv zeta in H.
  destruct (argc req <? 1); [xlast H|]. destruct (_ && _) in H; [xlast H|]. rewrite andb_false_r in H. unfold pong_here in H.
  bd H as o s1 H1. same H1. bd H as i s1 H1. same H1. bd H as cn s1 H1. same H1. cbv zeta in H. bd H as ok s1 H1. transitivity s1; [|xlast H].
  destruct (negb _); [|xlast H1]. destruct (_ =? _)%Z; [|xlast H1]. bd H1 as u s2 H2. transitivity s2; [rewrite (upd_con_ok _ _ _ _ _ H2); apply (ps (l := L_conn)); apply (p_conn s i); intros []; split; reflexivity|]. bd H1 as w s3 H3. apply is_type_ok in H3. destruct H3 as (-> & c3 & A3 & ->).
  pose proof (upd_con_ok _ _ _ _ _ H2) as E2. rewrite E2 in A3. cbn [s_heap set_s_conns] in A3. rewrite A in A3. injection A3 as <-. rewrite U in H1. cbn [ctype_eqb whenM] in H1. xlast H1.
Qed.
End U.
(** [uothers X ns]: the effect of every command of a registered user whose name is not in [ns] is within [X] *)
Definition uothers (X : state -> state -> Prop) (ns : list string) : Prop :=
  Forall (fun c => existsb (String.eqb (cm_name c)) ns = true \/ type_in T_USER (cm_types c) = false \/ forall h req, relp (user_pre h req) X (cm_fun c h req)) My_Commands.
Ltac uothers_tac :=
  let W' := fresh "W'" in
  assert (W' : forall h req, forall s, user_pre h req s -> prefix_ok h req s) by (let A := fresh in let B := fresh in intros h req s [[A B] _]; exact B);
  unfold uothers, My_Commands; repeat match goal with
  | |- Forall _ [] => constructor
  | |- Forall _ (mkCommand _ ?f _ _ _ _ :: _) => constructor; [first [left; reflexivity | right; left; reflexivity | right; right; intros h req; cbn [cm_fun]]|]
  | |- relp _ _ (IRC_NICK ?h ?req) => apply NICK_user
  | |- relp _ _ (IRC_SERVICE ?h ?req) => apply SERVICE_user
  | |- relp _ _ (IRC_SERVER ?h ?req) => apply SERVER_user
  | |- relp _ _ (IRC_QUIT ?h ?req) => exact (relp_weaken _ _ _ _ _ (W' h req) (IRC_QUIT_relp h req))
  | |- relp _ _ (IRC_PASS _ _) => apply PASS_user
  | |- relp _ _ (IRC_USER _ _) => apply USER_user
  | |- relp _ _ (IRC_PONG _ _) => apply PONG_user
  | |- relp _ _ (IRC_CAP _ _) => apply CAP_user
  | |- relp _ _ _ => apply rel_relp; rel_auto
  end.

Lemma user_line : forall X (PO : PreOrder X) (WS : WrSub X) (PC : PS L_close X) (PW : PS L_wc X) ns s i h c text b s', uothers X ns ->
  client_of s i h c -> cl_type c = T_USER -> Parse_Request i text s = Ok b s' ->
  X s s' \/ exists cmd req s1, command_run s i h c text cmd req s1 b s' /\ existsb (String.eqb (cm_name cmd)) ns = true /\ X s s1.
Proof.
  intros X PO WS PC PW ns s i h c text b s' O C T H. destruct (line_cases _ _ _ _ _ _ _ C H) as [A|[[Q _]|(cmd & req & s1 & R)]].
  - left. eapply answered_X; [exact _..|exact A].
  - exfalso. destruct Q; congruence.
  - pose proof (prepared_X X _ _ _ _ _ (cr_prep _ _ _ _ _ _ _ _ _ _ R)) as P. destruct (existsb (String.eqb (cm_name cmd)) ns) eqn:E; [right; exists cmd, req, s1; auto|left].
    transitivity s1; auto. unfold uothers in O. rewrite Forall_forall in O. destruct (O _ (cr_in _ _ _ _ _ _ _ _ _ _ R)) as [E1|[E1|E1]]; [congruence| |].
    + pose proof (cr_type _ _ _ _ _ _ _ _ _ _ R) as TY. rewrite T in TY. congruence.
    + eapply E1; [|exact (cr_run _ _ _ _ _ _ _ _ _ _ R)]. split; [exact (cr_pre1 _ _ _ _ _ _ _ _ _ _ R)|].
      destruct (cr_prep _ _ _ _ _ _ _ _ _ _ R) as (s2 & W2 & ->). destruct C as [_ C]. rewrite lookup_assoc in C. destruct (wr_cli _ _ _ _ W2 C) as (x & C3). exists (set_cl_cloaked x c). split; auto.
Qed.
