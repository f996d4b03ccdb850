(** A command that is not refused is carried out. *)
From Coq Require Import List Ascii String ZArith NArith Bool Lia Arith.
From Coq Require Import Relations RelationClasses.
From Verif Require Import Bytes Strl Match Lists ListsProofs Hash ParseReq State Messages Monad Core Write Info Chan Mode Msg Login Oper Server Dispatch Conn.
From Verif Require Import Rel RelWrite RelInfo RelBase RelChan RelSrv RelInit RelKey RelCmd RelComp WF RelGone Frame Tree Inv2 Inv4 Live Spec Observ Unch HandOper HandPrefix HandLine Frames Attrib HandGain HandUser HandChan HandJoin Output.
Import ListNotations.
Local Open Scope m_scope.

Lemma SetPenalty_view : forall h n s u s', IRC_SetPenalty h n s = Ok u s' -> view s s' /\ (forall j, flag_of s' j = flag_of s j) /\ s_out s' = s_out s.
Proof.
  intros h n s u s' H. unfold IRC_SetPenalty in H. bd H as c s1 H1. apply cli_ok in H1. destruct H1 as [_ ->].
  destruct (ctype_eqb _ _); [apply ret_ok in H; destruct H as [_ ->]; split; [reflexivity|auto]|]. destruct (cl_conn c) as [i|]; [|apply ret_ok in H; destruct H as [_ ->]; split; [reflexivity|auto]].
  unfold Conn_SetPenalty in H. bd H as m s1 H1. unfold cf in H1. rdgets H1. bd H as t s1 H1. unfold now in H1. rdgets H1. apply upd_con_ok in H. subst s'.
  split; [apply view_con; intro; split; reflexivity|]. split; [intro j; apply flag_con; reflexivity|reflexivity].
Qed.
Lemma scrub_ctcp : forall t, ScrubCTCP t = true -> exists a b, t = a ++ ":"%char :: "001"%char :: b.
Proof.
  assert (D : forall l r, drop_while (fun c => negb (Ascii.eqb c ":")) l = r -> exists a, l = a ++ r /\ (r = [] \/ exists r', r = ":"%char :: r')).
  { induction l as [|x l IH]; intros r E; cbn [drop_while] in E; [subst r; exists []; auto|]. destruct (Ascii.eqb x ":") eqn:E1; cbn [negb] in E.
    - apply Ascii.eqb_eq in E1. subst. exists []. eauto.
    - destruct (IH _ E) as (a & -> & K). exists (x :: a). auto. }
  intros t H. unfold ScrubCTCP in H. cbv zeta in H. set (p := match t with c :: r => if Ascii.eqb c ":" then r else t | [] => [] end) in H.
  assert (P : exists a, t = a ++ p). { subst p. destruct t as [|c r]; [exists []; auto|]. destruct (Ascii.eqb c ":"); [exists [c]|exists []]; auto. }
  destruct P as (a & P). destruct (D p _ eq_refl) as (a2 & P2 & [E|(r & E)]); rewrite E in H; [discriminate|]. rewrite E in P2. destruct r as [|c r]; [discriminate|]. destruct (Ascii.eqb c SOH) eqn:S; [|discriminate].
  apply Ascii.eqb_eq in S. subst c. exists (a ++ a2), r. rewrite P, P2, <- app_assoc. reflexivity.
Qed.
Lemma run_ordered : forall s i h c text n args cmd b s', client_of s i h c -> cl_type c <> T_SERVER -> orders s text n args ->
  find (fun c => String.eqb (cm_name c) n) My_Commands = Some cmd -> type_in (cl_type c) (cm_types cmd) = true ->
  cm_min cmd <= List.length args -> (forall m, cm_max cmd = Some m -> List.length args <= m) -> Parse_Request i text s = Ok b s' ->
  exists name s1, view s s1 /\ s_out s1 = s_out s /\ same_name name (B n) /\ cm_fun cmd h (mkReq None name args) s1 = Ok b s'.
Proof.
  intros s i h c text n args cmd b s' C T [(name & P & N) SC] F TI MI MA H. unfold Parse_Request in H. cbv zeta in H. bd H as sc s1 H1. unfold cf in H1. rdgets H1.
  assert (NS : cf_scrubctcp (s_conf s) && ScrubCTCP (trim text) = false). { apply andb_false_iff. destruct (cf_scrubctcp (s_conf s)); [right|auto]. destruct (ScrubCTCP (trim text)) eqn:E; auto. exfalso. apply SC; auto. apply scrub_ctcp. exact E. }
  rewrite NS, P in H. bd H as v s1 H1. unfold Validate_Prefix in H1. bd H1 as o s2 H2. destruct (client_of_get _ _ _ _ _ _ C H2) as [-> ->]. clear H2.
  bd H1 as h' s2 H2. apply nonnull_ok in H2. destruct H2 as [E ->]. injection E as <-. bd H1 as t s2 H2. destruct (client_of_type _ _ _ _ _ _ C H2) as [-> ->]. clear H2.
  bd H1 as cn s2 H2. apply con_ok in H2. destruct H2 as [-> _]. cbn [rq_prefix] in H1. destruct (ctype_eqb (cl_type c) T_SERVER) eqn:TS; [apply ctype_eqb_eq in TS; contradiction|]. cbn [andb] in H1. apply ret_ok in H1. destruct H1 as [-> ->].
  apply (Handle_Request_cmd _ _ _ _ (mkReq None name args) _ _ _ _ C N F) in H. unfold run_command in H. rewrite TI in H. cbn [negb] in H. bd H as u s1 H1. unfold argc in H. cbn [rq_args] in H.
  assert (V : view s s1 /\ s_out s1 = s_out s). { unfold whenM in H1. destruct (negb _) in H1; [destruct (SetPenalty_view _ _ _ _ _ H1) as (V & _ & O); auto|]. apply ret_ok in H1. destruct H1 as [_ ->]. split; reflexivity. }
  replace ((List.length args <? cm_min cmd) || match cm_max cmd with Some m => m <? List.length args | None => false end) with false in H.
  2: { symmetry. apply orb_false_iff. split; [apply Nat.ltb_ge; exact MI|]. destruct (cm_max cmd) as [m|]; auto. apply Nat.ltb_ge. apply MA. reflexivity. }
  bd H as u2 s2 H2. apply modify_ok in H2. subst s2. exists name, (set_s_wcounter 0 s1). split; [|tauto]. transitivity s1; [apply V|]. split; reflexivity.
Qed.

(** ---- writing to one client ---- *)
(** This_Server is never cloaked *)
Definition from_server (s : state) : Prop := exists m, assoc This_Server (s_heap s) = Some m /\ settled m /\ cl_type m = T_SERVER /\ ~ In "x"%char (cl_modes m).
Lemma WriteStrClientPrefix_ok : forall to pref f l s b s', IRC_WriteStrClientPrefix to pref f l s = Ok b s' -> 
  exists vals s1 nh c i p s2, mseq l s = Ok vals s1 /\ next_hop s1 to nh /\ assoc nh (s_heap s1) = Some c /\ cl_conn c = Some i /\ Get_Prefix nh pref s1 = Ok p s2 /\
    wrote1 i (":"%char :: p ++ " "%char :: fmt (B f) vals) b s2 s'.
Proof.
  intros to pref f l s b s' H. unfold IRC_WriteStrClientPrefix in H. bd H as buf s1 H1. apply vsn_ok in H1. destruct H1 as (vals & H1 & ->). bd H as nh s2 H2. apply Client_NextHop_next in H2. destruct H2 as [-> N].
  bd H as o s2 H2. unfold Client_Conn in H2. bd H2 as c s3 H3. apply cli_ok in H3. destruct H3 as [A ->]. apply ret_ok in H2. destruct H2 as [-> ->]. bd H as i s2 H2. apply nonnull_ok in H2. destruct H2 as [E ->].
  destruct (Conn_WriteStr_ok _ _ _ _ _ _ H) as (v2 & s2 & M & W). apply mseq_cons_ok in M. destruct M as (a & s3 & t & M1 & M & ->). bd M1 as p s4 H4. apply ret_ok in M1. destruct M1 as [-> ->].
  apply mseq_cons_ok in M. destruct M as (a & s5 & t2 & M1 & M & ->). apply aS_ok in M1. destruct M1 as [-> ->]. apply mseq_nil_ok in M. destruct M as [-> ->].
  exists vals, s1, nh, c, i, p, s4. do 5 (split; [assumption|]). destruct W as [W1 W2 W3 W4]. split; auto. rewrite W4. destruct b; auto. f_equal. f_equal. f_equal.
  set (x := fmt (B f) vals). change (wire (":"%char :: p ++ " "%char :: (firstn 999 (cut0 x) ++ [])) = wire (":"%char :: p ++ " "%char :: x)). rewrite app_nil_r.
  rewrite (app_comm_cons p (" "%char :: _) ":"%char), (app_comm_cons p (" "%char :: x) ":"%char).
  replace ((":"%char :: p) ++ " "%char :: firstn 999 (cut0 x)) with ((":"%char :: p ++ [" "%char]) ++ firstn 999 (cut0 x)) by (rewrite app_comm_cons, <- app_assoc; reflexivity). rewrite wire_cut, app_comm_cons, <- app_assoc. reflexivity.
Qed.
Lemma wire_on : forall t, wire t = on_wire t.
Proof.
  intro t. reflexivity.
Qed.
Lemma written_one : forall s s' i t, s_out s' = [(i, t)] ++ s_out s -> forall j, written s s' j (if (i =? j)%nat then [t] else []).
Proof. intros s s' i t E j. exists [(i, t)]. split; auto. cbn [filter fst]. destruct (Nat.eqb i j); reflexivity. Qed.
Lemma local_hop : forall s h c i x, tree s -> assoc h (s_heap s) = Some c -> cl_conn c = Some i -> next_hop s h x -> x = h.
Proof.
  intros s h c i x T A CI N. assert (D : next_hop s h h). { eapply NH_direct; [rewrite lookup_assoc; exact A|]. destruct (tr_local _ T _ _ _ A CI); auto. } eapply next_hop_fun; eauto.
Qed.
(** a reply of this server to a client of its own *)
Lemma reply_local : forall s h c i f l vals b s' me, tree s -> assoc h (s_heap s) = Some c -> cl_conn c = Some i -> cl_type c <> T_SERVER ->
  assoc This_Server (s_heap s) = Some me -> ~ In "x"%char (cl_modes me) -> mseq l s = Ok vals s -> IRC_WriteStrClient h f l s = Ok b s' ->
  wrote1 i (":"%char :: cl_id me ++ " "%char :: fmt (B f) vals) b s s'.
Proof.
  intros s h c i f l vals b s' me T A CI NS AM NX M H. unfold IRC_WriteStrClient in H. destruct (WriteStrClientPrefix_ok _ _ _ _ _ _ _ H) as (v2 & s1 & nh & c1 & i1 & p & s2 & M1 & N & A1 & C1 & G & W).
  rewrite M in M1. injection M1 as <- <-. assert (nh = h) by (eapply local_hop; eauto). subst nh. rewrite A in A1. injection A1 as <-. rewrite CI in C1. injection C1 as <-.
  unfold Get_Prefix in G. bd G as t s3 G1. apply is_type_ok in G1. destruct G1 as (-> & c1 & A1 & ->). rewrite A in A1. injection A1 as <-. destruct (ctype_eqb (cl_type c) T_SERVER) eqn:TS; [apply ctype_eqb_eq in TS; contradiction|].
  assert (S : settled me) by (intro; contradiction). destruct (Mask_settled _ _ _ _ _ AM S G) as [-> ->]. destruct (tr_me _ T) as (me' & B1 & B2 & _). rewrite AM in B1. injection B1 as <-. rewrite B2 in W. change (ctype_eqb T_SERVER T_SERVER) with true in W.
  destruct (memb "x" (cl_modes me)) eqn:X; [apply memb_In in X; contradiction|]. exact W.
Qed.
Lemma view_tree : forall s s', view s s' -> tree s -> tree s'.
Proof.
  intros s s' V [T1 T2 T3 T4 T5 T6 T7]. pose proof (v_heap _ _ V) as EH. pose proof (v_clients _ _ V) as EC. split; rewrite ?EH, ?EC; auto.
  - intros i cn A. destruct (ends_assoc _ _ _ _ (eq_sym (v_ends _ _ V)) A) as (cn0 & A0 & _ & E). destruct (T3 _ _ A0) as (h & c & K1 & K2 & K3). exists h, c. split; [congruence|]. auto.
  - intros h c i A C. destruct (T4 _ _ _ A C) as (cn & K1 & K2). destruct (view_assoc _ _ _ _ V K1) as (cn' & K3 & _ & K4). exists cn'. split; auto. congruence.
  - unfold ordered in *. intros x p. rewrite EC. replace (intro_of s' x) with (intro_of s x) by (unfold intro_of; rewrite EH; reflexivity). apply T7.
Qed.
