(** Commands for operators only; the command table. *)
From Coq Require Import List Ascii String ZArith NArith Bool Lia Arith.
From Coq Require Import Relations RelationClasses.
From Verif Require Import Bytes Match Lists Hash ParseReq State Messages Monad Core Write Info Chan Mode Msg Login Oper Server Dispatch Conn.
From Verif Require Import Rel RelWrite RelInfo RelBase RelChan RelSrv RelInit RelKey RelCmd Spec Observ Unch.
Import ListNotations.
Local Open Scope m_scope.

Lemma wr_trans : forall a b c, wr a b -> wr b c -> wr a c.
Proof. intros. eapply rt_trans; eauto. Qed.
Lemma wr_refl : forall a, wr a a.
Proof. intro. apply rt_refl. Qed.

(** the facts about the sender that do not change while lines are written *)
Definition plain_user (h : handle) (s : state) : Prop :=
  exists c, assoc h (s_heap s) = Some c /\ cl_type c = T_USER /\ memb "o" (cl_modes c) = false.
Lemma plain_user_wr : forall h s s', wr s s' -> plain_user h s -> plain_user h s'.
Proof. intros h s s' W (c & A & B & C). destruct (wr_cli _ _ _ _ W A) as [x E]. exists (set_cl_cloaked x c). auto. Qed.

Lemma strchr0_memb : forall c s, c <> NUL -> strchr0 c s = memb c s.
Proof. intros c s H. unfold strchr0. destruct (Ascii.eqb c NUL) eqn:E; auto. apply Ascii.eqb_eq in E. contradiction. Qed.
Lemma HasMode_plain : forall h s b s', plain_user h s -> Client_HasMode h "o" s = Ok b s' -> b = false /\ s' = s.
Proof.
  intros h s b s' (c & A & B & C) H. unfold Client_HasMode in H. bd H as x s1 H1. apply cli_ok in H1. destruct H1 as [H1 ->].
  rewrite A in H1. injection H1 as <-. apply ret_ok in H. destruct H as [-> ->]. rewrite strchr0_memb by discriminate. auto.
Qed.
Lemma is_type_plain : forall h s b s', plain_user h s -> is_type h T_SERVER s = Ok b s' -> b = false /\ s' = s.
Proof.
  intros h s b s' (c & A & B & C) H. apply is_type_ok in H. destruct H as (-> & x & H & ->). rewrite A in H. injection H as <-. rewrite B. auto.
Qed.
Lemma Op_Check_plain : forall h req s o s', plain_user h s -> Op_Check h req s = Ok o s' -> o = None /\ s' = s.
Proof.
  intros h req s o s' P H. unfold Op_Check in H. bd H as srv s1 H1. destruct (is_type_plain _ _ _ _ P H1) as [-> ->].
  bd H as o1 s1 H2. assert (o1 = Some h /\ s1 = s) as [-> ->] by (destruct (rq_prefix req); apply ret_ok in H2; exact H2). clear H1 H2.
  bd H as cs s1 H1. destruct (is_type_plain _ _ _ _ P H1) as [-> ->]. cbn [andb] in H. bd H as op s1 H2.
  destruct (HasMode_plain _ _ _ _ P H2) as [-> ->]. cbn [negb] in H. apply ret_ok in H. auto.
Qed.
Lemma oper_only_plain : forall h req k s b s', plain_user h s -> oper_only h req k s = Ok b s' -> wr s s'.
Proof.
  intros h req k s b s' P H. unfold oper_only in H. bd H as o s1 H1. destruct (Op_Check_plain _ _ _ _ _ P H1) as [-> ->].
  revert H. apply (Op_NoPrivileges_rel (X := wr)).
Qed.

Definition oper_cmd (n : string) : bool := existsb (String.eqb n) ["DIE"; "RESTART"; "REHASH"; "CONNECT"; "DISCONNECT"; "KILL"; "GLINE"; "KLINE"; "SQUIT"; "WALLOPS"]%string.
Lemma need_more_wr : forall h req, rel wr (need_more h req).
Proof. intros. unfold need_more. rel_auto. Qed.
Lemma oper_handler : forall cmd h req s b s', In cmd My_Commands -> oper_cmd (cm_name cmd) = true -> plain_user h s ->
  cm_fun cmd h req s = Ok b s' -> wr s s'.
Proof.
  intros cmd h req s b s' I O P.
  assert (K : forall (l : list command) (Q : command -> Prop), (forall c, In c l -> Q c) -> forall c, In c l -> Q c) by auto.
  unfold My_Commands in I.
  repeat (destruct I as [<-|I]; [try (vm_compute in O; discriminate O)|]); try contradiction; cbn [cm_fun]; clear O K; intro H.
  - (* CONNECT *) unfold IRC_CONNECT in H. cbv zeta in H.
    destruct (negb _) in H; [revert H; apply need_more_wr|]. destruct (_ && _) in H; [revert H; apply need_more_wr|].
    bd H as c s1 H1. apply cli_ok in H1. destruct H1 as [H1 ->]. pose proof P as (c' & A & B & C). rewrite A in H1. injection H1 as <-. rewrite B, C in H. cbn [ctype_eqb negb andb] in H.
    revert H. apply (Op_NoPrivileges_rel (X := wr)).
  - unfold IRC_DIE in H. eapply oper_only_plain; eauto.
  - unfold IRC_DISCONNECT in H. eapply oper_only_plain; eauto.
  - unfold IRC_xLINE in H. destruct (_ && _) in H; [revert H; apply need_more_wr|]. bd H as aro s1 H1. unfold cf in H1. apply gets_ok in H1. destruct H1 as [-> ->].
    bd H as sv s1 H1. destruct (is_type_plain _ _ _ _ P H1) as [-> ->]. rewrite andb_false_r in H. bd H as o s1 H2. destruct (Op_Check_plain _ _ _ _ _ P H2) as [-> ->].
    revert H. apply (Op_NoPrivileges_rel (X := wr)).
  - unfold IRC_KILL in H. bd H as t s1 H1. apply Client_Type_ok in H1. destruct H1 as (-> & c & A & ->). pose proof P as (c' & A' & B & C). rewrite A in A'. injection A' as <-. rewrite B in H. cbn [ctype_eqb] in H.
    bd H as al s1 H1. bd H1 as o s2 H2. destruct (Op_Check_plain _ _ _ _ _ P H2) as [-> ->]. apply ret_ok in H1. destruct H1 as [-> ->]. cbn [is_some negb] in H.
    revert H. apply (Op_NoPrivileges_rel (X := wr)).
  - unfold IRC_xLINE in H. destruct (_ && _) in H; [revert H; apply need_more_wr|]. bd H as aro s1 H1. unfold cf in H1. apply gets_ok in H1. destruct H1 as [-> ->].
    bd H as sv s1 H1. destruct (is_type_plain _ _ _ _ P H1) as [-> ->]. rewrite andb_false_r in H. bd H as o s1 H2. destruct (Op_Check_plain _ _ _ _ _ P H2) as [-> ->].
    revert H. apply (Op_NoPrivileges_rel (X := wr)).
  - unfold IRC_REHASH in H. eapply oper_only_plain; eauto.
  - unfold IRC_RESTART in H. eapply oper_only_plain; eauto.
  - unfold IRC_SQUIT in H. cbv zeta in H. bd H as c s1 H1. apply cli_ok in H1. destruct H1 as [H1 ->]. pose proof P as (c' & A & B & C). rewrite A in H1. injection H1 as <-. rewrite B, C in H. cbn [ctype_eqb negb andb] in H.
    revert H. apply (Op_NoPrivileges_rel (X := wr)).
  - unfold IRC_WALLOPS in H. bd H as t s1 H1. apply Client_Type_ok in H1. destruct H1 as (-> & c & A & ->). pose proof P as (c' & A' & B & C). rewrite A in A'. injection A' as <-. rewrite B in H.
    eapply oper_only_plain; eauto.
Qed.

Lemma client_of_get : forall s i h c o s', client_of s i h c -> Conn_GetClient i s = Ok o s' -> o = Some h /\ s' = s.
Proof.
  intros s i h c o s' [(cn & A & B) _] H. unfold Conn_GetClient in H. bd H as x s1 H1. rewrite lookup_assoc in A. apply con_ok in H1. destruct H1 as [-> H1].
  apply ret_ok in H. destruct H as [-> ->]. split; auto. destruct H1 as [H1|[H1 _]]; congruence.
Qed.
Lemma client_of_type : forall s i h c t s', client_of s i h c -> Client_Type h s = Ok t s' -> t = cl_type c /\ s' = s.
Proof.
  intros s i h c t s' [_ A] H. rewrite lookup_assoc in A. apply Client_Type_ok in H. destruct H as (-> & x & H & ->). split; congruence.
Qed.


Lemma find_cmd : forall req cmd, find (fun x => caseeq (rq_command req) (B (cm_name x))) My_Commands = Some cmd ->
  In cmd My_Commands /\ same_name (rq_command req) (B (cm_name cmd)).
Proof. intros req cmd H. apply find_some in H. destruct H as [H1 H2]. split; auto. apply same_name_iff. auto. Qed.
(** the command found for a name *)
Definition distinct_names : bool :=
  forallb (fun c => forallb (fun d => Bool.eqb (caseeq (B (cm_name c)) (B (cm_name d))) (String.eqb (cm_name d) (cm_name c))) My_Commands) My_Commands.
Lemma distinct_names_ok : distinct_names = true.
Proof. vm_compute. reflexivity. Qed.
Lemma find_ext_in : forall A (f g : A -> bool) l, (forall a, In a l -> f a = g a) -> find f l = find g l.
Proof. induction l as [|a l IH]; cbn; intros H; auto. rewrite <- (H a) by auto. destruct (f a); auto. Qed.
Lemma find_name : forall x n, In n (map cm_name My_Commands) -> same_name x (B n) ->
  find (fun c => caseeq x (B (cm_name c))) My_Commands = find (fun c => String.eqb (cm_name c) n) My_Commands.
Proof.
  intros x n I E. apply find_ext_in. intros d D. apply in_map_iff in I. destruct I as (c & <- & C).
  pose proof distinct_names_ok as K. unfold distinct_names in K. rewrite forallb_forall in K. specialize (K _ C). rewrite forallb_forall in K. specialize (K _ D). apply eqb_prop in K.
  rewrite <- K. destruct (caseeq x (B (cm_name d))) eqn:E1, (caseeq (B (cm_name c)) (B (cm_name d))) eqn:E2; auto.
  - apply same_name_iff in E1. assert (caseeq (B (cm_name c)) (B (cm_name d)) = true); [|congruence]. apply same_name_iff. unfold same_name in *. congruence.
  - apply same_name_iff in E2. assert (caseeq x (B (cm_name d)) = true); [|congruence]. apply same_name_iff. unfold same_name in *. congruence.
Qed.
(** a name of the table is never taken for a numeric *)
Lemma lower_letter : forall c d, (65 <=? nat_of_ascii d) && (nat_of_ascii d <=? 90) = true -> lower_char c = lower_char d ->
  isspace c = false /\ Ascii.eqb c "-" = false /\ Ascii.eqb c "+" = false /\ isdigit c = false.
Proof.
  intros c d D. unfold lower_char at 2. rewrite D. intro E.
  assert (N : 97 <= nat_of_ascii (lower_char c) <= 122).
  { rewrite E. apply andb_true_iff in D. destruct D as [D1 D2]. apply Nat.leb_le in D1, D2. rewrite nat_ascii_embedding; lia. }
  clear E D d. revert N. destruct c as [[] [] [] [] [] [] [] []]; vm_compute; try (intros [N1 N2]; exfalso; lia); auto.
Qed.
Lemma atoi_zero : forall a x, isspace a = false -> Ascii.eqb a "-" = false -> Ascii.eqb a "+" = false -> isdigit a = false -> atoi (a :: x) = 0%Z.
Proof. intros a x H1 H2 H3 H4. unfold atoi, atol. cbn [drop_while]. rewrite H1, H2, H3. cbn [digits_val]. rewrite H4. reflexivity. Qed.
Definition upper_names : bool := forallb (fun c => match B (cm_name c) with d :: _ => (65 <=? nat_of_ascii d) && (nat_of_ascii d <=? 90) | [] => false end) My_Commands.
Lemma upper_names_ok : upper_names = true.
Proof. vm_compute. reflexivity. Qed.
Lemma name_atoi : forall x n, In n (map cm_name My_Commands) -> same_name x (B n) -> atoi x = 0%Z.
Proof.
  intros x n I E. apply in_map_iff in I. destruct I as (c & <- & C). pose proof upper_names_ok as U. unfold upper_names in U. rewrite forallb_forall in U. specialize (U _ C).
  destruct (B (cm_name c)) as [|d r]; [discriminate|]. destruct x as [|a x]; [discriminate|]. unfold same_name in E. cbn [map] in E. injection E as E _.
  destruct (lower_letter _ _ U E) as (H1 & H2 & H3 & H4). apply atoi_zero; auto.
Qed.
Lemma Handle_Request_cmd : forall s i h c req b s' n cmd, client_of s i h c ->
  same_name (rq_command req) (B n) -> find (fun c => String.eqb (cm_name c) n) My_Commands = Some cmd ->
  Handle_Request i req s = Ok b s' -> run_command h (cl_type c) cmd req s = Ok b s'.
Proof.
  intros s i h c req b s' n cmd C E F H. unfold Handle_Request in H. bd H as o s1 H1. destruct (client_of_get _ _ _ _ _ _ C H1) as [-> ->].
  bd H as x s1 H2. apply nonnull_ok in H2. destruct H2 as [E0 ->]. injection E0 as <-. bd H as t s1 H2. destruct (client_of_type _ _ _ _ _ _ C H2) as [-> ->].
  assert (I : In n (map cm_name My_Commands)). { apply find_some in F. destruct F as [F1 F2]. apply String.eqb_eq in F2. subst. apply in_map. auto. }
  rewrite (name_atoi _ _ I E) in H. change (1 <? 0)%Z with false in H. rewrite andb_false_r in H. rewrite (find_name _ n I E), F in H. exact H.
Qed.
(** a command that is not in the table and no numeric *)
Lemma Handle_Request_unknown : forall s i h c req b s', client_of s i h c ->
  (forall n, In n (map cm_name My_Commands) -> ~ same_name (rq_command req) (B n)) ->
  cl_type c <> T_SERVER /\ cl_type c <> T_UNKNOWNSERVER \/ List.length (rq_command req) <> 3 ->
  Handle_Request i req s = Ok b s' -> unchanged s s'.
Proof.
  intros s i h c req b s' C E N H. unfold Handle_Request in H. bd H as o s1 H1. destruct (client_of_get _ _ _ _ _ _ C H1) as [-> ->].
  bd H as x s1 H2. apply nonnull_ok in H2. destruct H2 as [E0 ->]. injection E0 as <-. bd H as t s1 H2. destruct (client_of_type _ _ _ _ _ _ C H2) as [-> ->].
  replace ((ctype_eqb (cl_type c) T_SERVER || ctype_eqb (cl_type c) T_UNKNOWNSERVER) && (List.length (rq_command req) =? 3) && (1 <? atoi (rq_command req))%Z) with false in H.
  2: { symmetry. destruct N as [[N1 N2]|N]; [destruct (cl_type c); auto; congruence|]. apply Nat.eqb_neq in N. rewrite N. rewrite andb_false_r. reflexivity. }
  destruct (find _ My_Commands) eqn:F.
  - apply find_some in F. destruct F as [F1 F2]. exfalso. eapply E; [apply in_map; exact F1|]. apply same_name_iff. auto.
  - destruct (negb _) in H; [apply ret_ok in H; destruct H as [_ ->]; reflexivity|].
    destruct (negb _) in H; [|apply ret_ok in H; destruct H as [_ ->]; reflexivity].
    revert H. apply (fun X => X s b s'). change (rel unchanged (IRC_WriteErrClient h ERR_UNKNOWNCOMMAND_MSG [aID h; aS (rq_command req)])). rel_auto.
Qed.

(** a command that is refused by the command table *)
Lemma run_refused : forall h t cmd req s b s', In cmd My_Commands ->
  type_in t (cm_types cmd) = false \/ argc req < cm_min cmd \/ (exists m, cm_max cmd = Some m /\ m < argc req) ->
  run_command h t cmd req s = Ok b s' -> unchanged s s'.
Proof.
  intros h t cmd req s b s' I R. pose proof (cmd_penalty _ I) as Hp. apply (fun X => X s b s'). change (rel unchanged (run_command h t cmd req)). unfold run_command.
  destruct (type_in t (cm_types cmd)) eqn:E; cbn [negb].
  - destruct R as [R|R]; [discriminate|]. assert (X : (argc req <? cm_min cmd) || match cm_max cmd with Some m => m <? argc req | None => false end = true).
    { apply orb_true_iff. destruct R as [R|(m & R1 & R2)]; [left; apply Nat.ltb_lt; auto|right; rewrite R1; apply Nat.ltb_lt; auto]. }
    rewrite X. unfold need_more. rel_auto.
  - rel_auto.
Qed.

(** C21 *)
Theorem oper_cmd_refused : forall s i h c req b s' n, client_of s i h c -> cl_type c = T_USER -> ~ In "o"%char (cl_modes c) ->
  In n ["DIE"; "RESTART"; "REHASH"; "CONNECT"; "DISCONNECT"; "KILL"; "GLINE"; "KLINE"; "SQUIT"; "WALLOPS"]%string ->
  same_name (rq_command req) (B n) -> Handle_Request i req s = Ok b s' -> unchanged s s'.
Proof.
  intros s i h c req b s' n C T M I E H.
  assert (O : oper_cmd n = true). { apply existsb_exists. exists n. split; auto. apply String.eqb_refl. }
  assert (exists cmd, find (fun c => String.eqb (cm_name c) n) My_Commands = Some cmd) as [cmd F].
  { repeat (destruct I as [<-|I]; [eexists; reflexivity|]). contradiction. }
  eapply Handle_Request_cmd in H; eauto. apply find_some in F. destruct F as [F1 F2]. apply String.eqb_eq in F2. subst n.
  assert (P : plain_user h s). { destruct C as [_ C]. rewrite lookup_assoc in C. exists c. split; auto. split; auto. destruct (memb "o" (cl_modes c)) eqn:X; auto. apply memb_In in X. contradiction. }
  pose proof (cmd_penalty _ F1) as Hp. unfold run_command in H. destruct (negb _) in H.
  { revert H. apply (fun X => X s b s'). change (rel unchanged (if ctype_eqb (cl_type c) T_USER && type_in T_SERVER (cm_types cmd)
      then IRC_WriteErrClient h ERR_NOTREGISTEREDSERVER_MSG [aID h] else IRC_WriteErrClient h ERR_NOTREGISTERED_MSG [aID h])). rel_auto. }
  bd H as u s1 H1. assert (W : wr s s1). { revert H1. apply (fun X => X s u s1). change (rel wr (whenM (negb (cm_penalty cmd =? 0)%Z) (IRC_SetPenalty h (cm_penalty cmd)))). rel_auto. }
  transitivity s1; [apply wr_unchanged; auto|]. destruct (_ || _) in H.
  { revert H. apply (need_more_rel (X := unchanged)). }
  bd H as u2 s2 H2. apply modify_ok in H2. subst s2. transitivity (set_s_wcounter 0 s1); [apply ps; constructor|].
  apply wr_unchanged. eapply oper_handler; eauto. destruct (plain_user_wr _ _ _ W P) as (c' & P'). exists c'. exact P'.
Qed.

(** the table of Spec.v is the table of the model *)
Definition who_of (o : option (list ctype)) : who :=
  match o with None => Anybody | Some [T_UNKNOWN] => New | Some [T_USER] => Users | Some [T_SERVER] => Servers | Some _ => UsersServers end.
Lemma table_ok : command_table = map (fun c => (cm_name c, who_of (cm_types c), cm_min c, cm_max c)) My_Commands.
Proof. reflexivity. Qed.
Lemma types_ok : forall c, In c My_Commands -> In (cm_types c) [US; US_U; US_S; US_NEW; US_ANY].
Proof. intros c I. unfold My_Commands in I. repeat (destruct I as [<-|I]; [cbn [cm_types]; cbn; tauto|]). contradiction. Qed.
Lemma permitted_type : forall c t, In c My_Commands -> ~ permitted (who_of (cm_types c)) t -> type_in t (cm_types c) = false.
Proof.
  intros c t I. apply types_ok in I. destruct I as [<-|[<-|[<-|[<-|[<-|[]]]]]]; destruct t; cbn; intro N; auto; try (exfalso; apply N; auto; fail).
Qed.
(** C22 *)
Theorem not_permitted : forall s i h c req b s' name w lo hi, In (name, w, lo, hi) command_table -> client_of s i h c ->
  same_name (rq_command req) (B name) -> ~ permitted w (cl_type c) \/ ~ within lo hi (argc req) ->
  Handle_Request i req s = Ok b s' -> unchanged s s'.
Proof.
  intros s i h c req b s' name w lo hi I C E N H. rewrite table_ok in I. apply in_map_iff in I. destruct I as (cmd & X & I). injection X as <- <- <- <-.
  assert (F : find (fun c => String.eqb (cm_name c) (cm_name cmd)) My_Commands = Some cmd).
  { clear - I. unfold My_Commands in *. repeat (destruct I as [<-|I]; [reflexivity|]). contradiction. }
  eapply Handle_Request_cmd in H; eauto. revert H. apply run_refused; auto. destruct N as [N|N]; [left; apply permitted_type; auto|right].
  unfold within in N. destruct (Nat.lt_ge_cases (argc req) (cm_min cmd)); auto. right. destruct (cm_max cmd) as [m|]; [|tauto]. exists m. split; auto. lia.
Qed.
Theorem unknown_command : forall s i h c req b s', client_of s i h c ->
  (forall n w lo hi, In (n, w, lo, hi) command_table -> ~ same_name (rq_command req) (B n)) ->
  cl_type c <> T_SERVER /\ cl_type c <> T_UNKNOWNSERVER \/ List.length (rq_command req) <> 3 ->
  Handle_Request i req s = Ok b s' -> unchanged s s'.
Proof.
  intros s i h c req b s' C E N H. eapply Handle_Request_unknown; eauto. intros n I. rewrite table_ok in E. apply in_map_iff in I. destruct I as (cmd & <- & I).
  eapply E. apply in_map_iff. exists cmd. split; eauto.
Qed.
(** what an unregistered client cannot do *)
Theorem before_registration : forall s i h c req b s', client_of s i h c -> ~ registered (cl_type c) -> cl_type c <> T_UNKNOWNSERVER ->
  (forall n, In n ["CAP"; "ERROR"; "NICK"; "NOTICE"; "PASS"; "PONG"; "QUIT"; "SERVER"; "SERVICE"; "USER"; "WEBIRC"; "GET"; "POST"]%string -> ~ same_name (rq_command req) (B n)) ->
  Handle_Request i req s = Ok b s' -> unchanged s s'.
Proof.
  intros s i h c req b s' C R U E H.
  destruct (find (fun x => caseeq (rq_command req) (B (cm_name x))) My_Commands) as [cmd|] eqn:F.
  - apply find_some in F. destruct F as [I F]. apply same_name_iff in F.
    eapply (not_permitted _ _ _ _ _ _ _ (cm_name cmd) (who_of (cm_types cmd)) (cm_min cmd) (cm_max cmd)); eauto.
    { rewrite table_ok. apply in_map_iff. exists cmd. auto. }
    left. intro P. unfold registered in R.
    unfold My_Commands in I. repeat (destruct I as [<-|I]; [cbn [cm_name cm_types who_of US US_U US_S US_NEW US_ANY permitted] in *; first [tauto | eapply E; [|exact F]; auto 20 using in_eq, in_cons]|]). contradiction.
  - eapply Handle_Request_unknown; eauto.
    { intros n I X. apply in_map_iff in I. destruct I as (cmd & <- & I). eapply find_none in F; eauto. cbn in F. apply same_name_iff in X. congruence. }
    left. split; auto. intro X. apply R. right; left; auto.
Qed.

(** C21, for linked servers *)
Theorem xline_remote_refused : forall s i h c req b s' n, client_of s i h c -> cl_type c = T_SERVER -> cf_allowremoteoper (s_conf s) = false ->
  n = "GLINE"%string \/ n = "KLINE"%string -> same_name (rq_command req) (B n) -> Handle_Request i req s = Ok b s' -> unchanged s s'.
Proof.
  intros s i h c req b s' n C T A I E H.
  assert (exists x, find (fun c => String.eqb (cm_name c) n) My_Commands = Some (mkCommand n IRC_xLINE US 0 None x)) as [x F] by (destruct I as [-> | ->]; eexists; reflexivity).
  eapply Handle_Request_cmd in H; eauto. destruct C as [_ C]. rewrite lookup_assoc in C.
  apply find_some in F. destruct F as [F _]. pose proof (cmd_penalty _ F) as Hp. cbn [cm_penalty] in Hp. unfold run_command in H. cbn [cm_types cm_penalty cm_min cm_max cm_fun] in H. rewrite T in H. cbn [type_in US existsb ctype_eqb orb negb] in H.
  bd H as u s1 H1. assert (W : wr s s1). { revert H1. apply (fun X => X s u s1). change (rel wr (whenM (negb (x =? 0)%Z) (IRC_SetPenalty h x))). rel_auto. }
  transitivity s1; [apply wr_unchanged; auto|]. rewrite (w_conf _ _ (wr_same _ _ W)) in A || pose proof (w_conf _ _ (wr_same _ _ W)) as WC.
  replace (argc req <? 0) with false in H by (symmetry; apply Nat.ltb_ge; lia). cbn [orb] in H.
  bd H as u2 s2 H2. apply modify_ok in H2. subst s2. transitivity (set_s_wcounter 0 s1); [apply ps; constructor|]. apply wr_unchanged.
  destruct (wr_cli _ _ _ _ W C) as [y Hy].
  unfold IRC_xLINE in H. destruct (_ && _) in H; [revert H; apply need_more_wr|]. bd H as aro s2 H2. unfold cf in H2. apply gets_ok in H2. destruct H2 as [-> ->].
  bd H as sv s2 H2. apply is_type_ok in H2. destruct H2 as (-> & d & D & ->). cbn [s_heap set_s_wcounter] in D. rewrite Hy in D. injection D as <-. cbn [cl_type set_cl_cloaked] in H. rewrite T in H.
  cbn [s_conf set_s_wcounter] in H. rewrite ?WC, A in H. cbn [negb andb ctype_eqb] in H. bd H as o s2 H2. apply ret_ok in H2. destruct H2 as [-> ->].
  revert H. apply (Op_NoPrivileges_rel (X := wr)).
Qed.
