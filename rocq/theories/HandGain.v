(** Who becomes an IRC operator (C20). *)
From Coq Require Import List Ascii String ZArith NArith Bool Lia Arith.
From Coq Require Import Relations RelationClasses.
From Verif Require Import Bytes Match MatchSpec MatchProofs Lists Hash ParseReq State Messages Monad Core Write Info Chan Mode Msg Login Oper Server Dispatch Conn.
From Verif Require Import Rel RelWrite RelInfo RelBase RelChan RelSrv RelInit RelKey RelCmd RelComp WF RelGone Frame Tree Inv1 Inv2 Inv4 Spec Observ Unch HandOper HandPrefix HandLine Frames Live Attrib.
Import ListNotations.
Local Open Scope m_scope.

Lemma mode_add_In : forall x l m, In x (fst (mode_add l m)) -> In x l \/ x = m.
Proof.
  intros x l m H. unfold mode_add in H. destruct (strchr0 m l); cbn [fst] in H; auto. unfold strlcat in H.
  destruct (_ && _) in H; [|auto]. apply in_app_or in H. destruct H as [H|H]; auto. right.
  destruct (_ <=? _) in H; [|cbn in H; intuition congruence]. destruct (CLIENT_MODE_LEN - List.length l - 1) as [|[|k]] in H; cbn in H; intuition congruence.
Qed.
Lemma mode_del_In : forall x l m, In x (fst (mode_del l m)) -> In x l.
Proof. intros x l m H. unfold mode_del in H. destruct (strchr0 m l); cbn [fst] in H; auto. eapply del_first_In; eauto. Qed.

(** ---- MODE without the letter 'o' ---- *)
Definition nosrv (c : client) : Prop := cl_type c <> T_SERVER.
Definition may_not (cl : handle) (pos : bytes) (rest : list bytes) (s : state) : Prop :=
  cfact cl nosrv s \/ (~ In "o"%char pos /\ Forall (fun a => ~ In "o"%char a) rest).
Lemma may_not_ks : forall cl pos rest s s', ksame s s' -> may_not cl pos rest s -> may_not cl pos rest s'.
Proof.
  intros cl pos rest s s' K [(c & A & N)|H]; [left|right; auto]. destruct (ks_cli _ _ _ _ K A) as (c' & A' & (_ & _ & E & _)). exists c'. split; auto. unfold nosrv in *. congruence.
Qed.
Lemma user_letter_no : forall cl origin set c s ok x hh s', user_letter cl origin set c s = Ok (ok, Some x, hh) s' ->
  x = c /\ (cfact cl nosrv s -> set = true -> x <> "o"%char).
Proof.
  intros cl origin set c s ok x hh s' H. unfold user_letter in H. bd H as srv s1 H1. apply is_type_ok in H1. destruct H1 as (-> & k & K & ->).
  assert (E : forall msg l, (ok <- IRC_WriteErrClient origin msg l ;; ret (ok, None, false)) s = Ok (ok, Some x, hh) s' -> False).
  { intros msg l E. bd E as o s2 H2. apply ret_ok in E. destruct E as [E _]. discriminate E. }
  destruct (ascii_dec c "o") as [-> | N].
  - change (memb "o" (B "bCiIsw")) with false in H. change (memb "o" (B "cqF")) with false in H. cbn iota in H. change (Ascii.eqb "o" "a") with false in H. change (Ascii.eqb "o" "B") with false in H. change (Ascii.eqb "o" "o") with true in H. cbn iota in H.
    destruct set; cbn [negb orb] in H.
    + destruct (ctype_eqb (cl_type k) T_SERVER) eqn:Q; [|exfalso; eauto]. apply ret_ok in H. destruct H as [H _]. injection H as -> -> ->. split; auto.
      intros (c' & A' & N'). apply ctype_eqb_eq in Q. exfalso. apply N'. congruence.
    + apply ret_ok in H. destruct H as [H _]. injection H as -> -> ->. split; auto. discriminate.
  - assert (X : x = c); [|subst; split; auto].
    repeat match type of H with
    | (if ?b then _ else _) _ = _ => destruct b
    | ret (_, Some _, _) _ = _ => apply ret_ok in H; destruct H as [H _]; congruence
    | ret (_, None, _) _ = _ => apply ret_ok in H; destruct H as [H _]; discriminate H
    | bind (IRC_WriteErrClient _ _ _) _ _ = _ => exfalso; eapply E; exact H
    | bind _ _ _ = _ => let a := fresh "a" in let sx := fresh "sx" in let HX := fresh "HX" in bd H as a sx HX
    end; try (apply ret_ok in H; destruct H as [H _]; congruence);
    try (exfalso; match type of H with bind (IRC_WriteErrClient _ _ _) _ _ = _ => bd H as o s2 H2 end; apply ret_ok in H; destruct H as [H _]; discriminate H).
    apply ret_ok in H. destruct H as [H _]. destruct (Ascii.eqb c NUL); congruence.
Qed.
Section U.
Context {X : state -> state -> Prop} {PO : PreOrder X} {WS : WrSub X} {P_meta : PS L_meta X} {P_umode : PS L_umode X}.
Lemma user_letter_ks : forall cl origin set c, rel ksame (user_letter cl origin set c).
Proof. intros. apply (user_letter_rel (X := ksame)). Qed.
Lemma user_modes_no : forall n cl origin target pos rest set tm hh, relp (may_not cl pos rest) X (user_modes n cl origin target pos rest set tm hh).
Proof.
  induction n; intros cl origin target pos rest set tm hh s a s' P H; cbn [user_modes] in H; [discriminate H|].
  bd H as nx s1 H1. assert (s1 = s /\ match nx with Some (p', r') => may_not cl p' r' s | None => True end) as [-> P'].
  { unfold next_mode in H1. destruct pos as [|x [|y p]]; [discriminate H1|apply ret_ok in H1; destruct H1 as [-> ->]..]; split; auto.
    - destruct rest as [|q r]; auto. destruct P as [P|[P1 P2]]; [left; auto|right]. inversion P2; subst. auto.
    - destruct P as [P|[P1 P2]]; [left; auto|right]. split; auto. intro I. apply P1. right. auto. }
  destruct nx as [[p' r']|]; [|rdret H; reflexivity]. clear P H1. cbv zeta in H.
  destruct (plusminus (hd0 p')); [eapply IHn; eauto|].
  bd H as u s1 H1. destruct u as [[ok x] hx]. assert (KS : ksame s s1) by (eapply user_letter_ks; eauto). assert (P1 := may_not_ks _ _ _ _ _ KS P').
  transitivity s1. { revert H1. apply (fun Y => Y s (ok, x, hx) s1). change (rel X (user_letter cl origin set (hd0 p'))). apply user_letter_rel. }
  destruct (negb ok); [rdret H; reflexivity|]. destruct x as [x|]; [|eapply IHn; eauto].
  destruct (user_letter_no _ _ _ _ _ _ _ _ _ H1) as [-> NO]. bd H as ch s2 H2.
  assert (XO : X s1 s2 /\ ksame s1 s2).
  { destruct set.
    - assert (hd0 p' <> "o"%char). { destruct P' as [P'|[P2 _]]; [auto|]. destruct p' as [|q p']; [cbn; discriminate|]. cbn. intros ->. apply P2. left. reflexivity. }
      split; [eapply (Client_ModeAdd_rel (X := X))|eapply (Client_ModeAdd_rel (X := ksame))]; eauto.
    - split; [eapply (Client_ModeDel_rel (X := X))|eapply (Client_ModeDel_rel (X := ksame))]; eauto. }
  destruct XO as [X1 K1]. transitivity s2; auto. eapply IHn; [|exact H]. eapply may_not_ks; eauto.
Qed.
Lemma Client_Mode_no : forall cl req origin target, relp (fun s => cfact cl nosrv s \/ Forall (fun a => ~ In "o"%char a) (skipn 1 (rq_args req))) X (Client_Mode cl req origin target).
Proof.
  intros cl req origin target s a s' P H. unfold Client_Mode in H. bd H as u s1 H1. apply is_type_ok in H1. destruct H1 as (-> & k & K & ->).
  destruct (_ && _) in H; [xlast H|]. destruct (argc req =? 1); [xlast H|]. cbv zeta in H. destruct (negb _) in H; [xlast H|].
  bd H as r s1 H1. destruct r as [[ok tm] hh]. transitivity s1; [|xlast H]. eapply user_modes_no; [|exact H1].
  destruct P as [P|P]; [left; auto|right]. unfold arg. destruct (rq_args req) as [|x [|y r]]; cbn [skipn nth] in *; auto. inversion P; subst. split; auto.
Qed.
End U.

(** ---- the frame: nobody gets the mode 'o' ---- *)
Definition no_gain (c c' : client) : Prop := In "o"%char (cl_modes c') -> In "o"%char (cl_modes c).
#[export] Instance no_gain_CR : CR no_gain.
Proof. split; unfold no_gain; auto. Qed.
Ltac csimple := intros c c' H; inversion H; subst; unfold no_gain; auto.
#[export] Instance no_gain_meta : CS L_meta no_gain. Proof. csimple. match goal with M : cmeta _ _ |- _ => rewrite (me_modes _ _ M) end; auto. Qed.
#[export] Instance no_gain_intro : CS L_intro no_gain. Proof. csimple. Qed.
#[export] Instance no_gain_id : CS L_id no_gain. Proof. csimple. unfold set_id. cbv zeta. destruct k; auto. Qed.
#[export] Instance no_gain_idany : CS L_idany no_gain. Proof. csimple. unfold set_id. cbv zeta. destruct k; auto. Qed.
#[export] Instance no_gain_umode : CS L_umode no_gain.
Proof. csimple; cbn [cl_modes set_cl_modes]; intro I; [apply mode_add_In in I; destruct I; congruence|eapply mode_del_In; eauto]. Qed.
#[export] Instance no_gain_type : CS L_type no_gain. Proof. csimple. unfold typed. destruct (ctype_eqb t T_SERVER); auto. Qed.
Definition mode_no (h : handle) (req : request) (s : state) : Prop :=
  Forall (fun a => ~ In "o"%char a) (skipn 1 (rq_args req)) \/
  (cfact h nosrv s /\ match rq_prefix req with Some p => Client_Search p s = Ok (Some h) s | None => True end).
Section G.
Context (s0 : state).
Notation X := (also wf (byH no_gain s0)).
Lemma IRC_MODE_no : forall h req, relp (mode_no h req) X (IRC_MODE h req).
Proof.
  intros h req s a s' P H. unfold IRC_MODE, with_sender in H. bd H as sv s1 H1. same H1.
  assert (K : forall origin, (client <- match rq_prefix req with
                  | Some p => o <- Client_Search p;; ret (if oheq o This_Server then This_Server else h)
                  | None => ret h
                  end;;
        (let a := arg req 0 in
         vn <- Client_IsValidNick a;;
         cl <- (if vn then Client_Search a else ret None);;
         ch <- (if valid_chan a then Channel_Search a else ret None);;
         match cl with
         | Some t => Client_Mode client req origin t
         | None =>
             match ch with
             | Some ch0 => Channel_Mode client req origin ch0
             | None =>
                 if vn
                 then IRC_WriteErrClient client ERR_NOSUCHNICK_MSG [aID client; aS a]
                 else IRC_WriteErrClient client ERR_NOSUCHCHANNEL_MSG [aID client; aS a]
             end
         end)) s = Ok a s' -> X s s').
  { clear H. intros origin H. bd H as cl s1 H1. assert (s1 = s /\ (cl = h \/ ~ (cfact h nosrv s /\ match rq_prefix req with Some p => Client_Search p s = Ok (Some h) s | None => True end))) as [-> CL].
    { destruct (rq_prefix req) as [p|].
      - bd H1 as o s2 H2. pose proof (Client_Search_ok _ _ _ _ H2) as [-> _]. apply ret_ok in H1. destruct H1 as [-> ->]. split; auto. destruct (oheq o This_Server) eqn:Q; auto.
        destruct o as [x|]; [|discriminate Q]. unfold oheq in Q. apply Nat.eqb_eq in Q. subst x. destruct (Nat.eq_dec h This_Server) as [-> |NE]; [left; reflexivity|]. right. intros [_ Y]. rewrite Y in H2. injection H2 as H2. unfold handle in *. congruence.
      - apply ret_ok in H1. destruct H1. auto. }
    cbv zeta in H. bd H as vn s1 H2. same H2. bd H as t s1 H2. same H2. bd H as ch s1 H2. same H2. destruct t as [t|]; [|xlast H].
    eapply Client_Mode_no; [|exact H]. destruct P as [P|P]; auto. destruct CL as [-> |CL]; [left; tauto|contradiction]. }
  destruct sv; [|eapply K; eauto]. destruct (rq_prefix req) as [p|] eqn:Q; [|xlast H]. bd H as o s1 H1. same H1. destruct o as [from|]; [eapply K; eauto|xlast H].
Qed.
Hypothesis DM : ~ In "o"%char (cf_defusermodes (s_conf s0)).
Lemma Login_Modes_no : LM X.
Proof.
  intros h s a s' H. destruct (in_dec ascii_dec "o"%char (cf_defusermodes (s_conf s))) as [I|N].
  - intro W. split; [revert W; change (pres wf s s'); eapply (lm (X := pres wf)); exact H|]. intros (E & _). rewrite E in I. contradiction.
  - unfold Login_Modes in H. bd H as dm s1 H1. unfold cf in H1. rdgets H1. destruct (cf_defusermodes (s_conf s)) as [|x dm] eqn:Q; [xlast H|]. rewrite <- Q in *. clear Q x dm.
    bd H as me s1 H1. same H1. bd H as id s1 H1. same H1. unfold void in H. bd H as r s1 H1. apply ret_ok in H. destruct H as [_ ->].
    eapply IRC_MODE_no; [|exact H1]. left. cbn [rq_args skipn]. constructor; [|constructor]. intro I.
    assert (forall n l, In "o"%char (firstn n l) -> In "o"%char l). { clear. induction n; intros [|y l] I; cbn in *; auto. contradiction. destruct I; auto. }
    apply H in I. destruct I as [I|I]; [discriminate I|contradiction].
Qed.
Local Existing Instance Login_Modes_no.
Lemma others_gain : others X ["MODE"; "OPER"]%string.
Proof. others_tac. Qed.
End G.

(** ---- OPER ---- *)
Ltac wrl H := xlast H.
Lemma OPER_gain : forall h req s b s' c, assoc h (s_heap s) = Some c -> cl_type c <> T_SERVER -> IRC_OPER h req s = Ok b s' ->
  forall j c', assoc j (s_heap s') = Some c' -> In "o"%char (cl_modes c') ->
  (exists c0, assoc j (s_heap s) = Some c0 /\ In "o"%char (cl_modes c0)) \/
  (j = h /\ exists op, In op (cf_opers (s_conf s)) /\ op_name op = arg req 0 /\ op_pwd op = arg req 1 /\
     match op_mask op with Some m => glob m (mask_of c (cl_host c)) | None => True end).
Proof.
  intros h req s b s' c A T H j c' A' O. unfold IRC_OPER in H. bd H as l s1 H1. unfold cf in H1. rdgets H1.
  assert (K : forall x y, wr x y -> (exists c0, assoc j (s_heap y) = Some c0 /\ In "o"%char (cl_modes c0)) -> exists c0, assoc j (s_heap x) = Some c0 /\ In "o"%char (cl_modes c0)).
  { intros x y W (c0 & A0 & O0). destruct (wr_cli_back _ _ _ _ W A0) as (c1 & z & A1 & ->). exists c1. auto. }
  assert (BP : forall a r, Bad_OperPass h a r s = Ok b s' -> wr s s').
  { intros a r Q. revert Q. apply (fun X => X s b s'). change (rel wr (Bad_OperPass h a r)). rel_auto. }
  destruct (find _ _) as [op|] eqn:F; [|left; eauto]. apply find_some in F. destruct F as [F1 F2]. apply beq_eq in F2.
  destruct (negb _) eqn:E in H; [left; eauto|]. apply negb_false_iff in E. apply beq_eq in E.
  bd H as mask s1 H1. unfold Client_Mask in H1. bd H1 as k s2 H2. apply cli_ok in H2. destruct H2 as [H2 ->]. rewrite A in H2. injection H2 as <-. apply ret_ok in H1. destruct H1 as [-> ->].
  destruct (ctype_eqb (cl_type c) T_SERVER) eqn:Q. { apply ctype_eqb_eq in Q. contradiction. } clear Q.
  destruct (match op_mask op with Some m => _ | None => _ end) eqn:M in H; [left; eauto|].
  destruct (Nat.eq_dec j h) as [-> | NE].
  - right. split; auto. exists op. split; auto. split; auto. split; auto. destruct (op_mask op); auto. apply negb_false_iff in M. apply Match_sound. exact M.
  - left. bd H as o s1 H1. same H1.
    assert (W : exists s1, (forall c0, assoc j (s_heap s1) = Some c0 -> assoc j (s_heap s) = Some c0) /\ wr s1 s').
    { destruct (negb o).
      - unfold andM in H. bd H as r s1 H1. bd H1 as u s2 H2. unfold void in H2. bd H2 as r2 s3 H3. apply ret_ok in H2. destruct H2 as [_ ->].
        unfold Client_ModeAdd in H3. bd H3 as k s4 H4. apply cli_ok in H4. destruct H4 as [_ ->]. destruct (mode_add (cl_modes k) "o") as [ms bb]. bd H3 as v s4 H4. apply ret_ok in H3. destruct H3 as [_ ->].
        apply upd_cli_ok in H4. destruct H4 as (c1 & Hc1 & ->). exists (set_cli h (set_cl_modes ms) s). split.
        + intros c0. unfold set_cli. cbn [s_heap set_s_heap]. rewrite assoc_aupd. destruct (Nat.eqb_spec h j); [congruence|auto].
        + apply (wr_trans _ s1); [|].
          * unfold set_cli. wrl H1.
          * wrl H.
      - exists s. split; auto. wrl H. }
    destruct W as (s1 & G & W). destruct (K _ _ W) as (c0 & A0 & O0); eauto.
Qed.

(** ---- a line of a client ---- *)
Ltac which_cmd I E := unfold My_Commands in I; repeat (destruct I as [<-|I]; [try discriminate E|]); [reflexivity|contradiction].
Lemma cmd_OPER : forall cmd, In cmd My_Commands -> cm_name cmd = "OPER"%string -> cmd = mkCommand "OPER" IRC_OPER US_U 2 (Some 2) 0.
Proof. intros cmd I E. which_cmd I E. Qed.
Lemma cmd_MODE : forall cmd, In cmd My_Commands -> cm_name cmd = "MODE"%string -> cmd = mkCommand "MODE" IRC_MODE US 1 None 1.
Proof. intros cmd I E. which_cmd I E. Qed.
Lemma wf_lt : forall s h c, wf s -> assoc h (s_heap s) = Some c -> h < s_next s.
Proof. intros s h c W A. apply (wf_next _ W). cbn. change h with (fst (h, c)). apply in_map. apply assoc_In. exact A. Qed.
Lemma nick_short : forall s h c, live s -> undisturbed s -> assoc h (s_heap s) = Some c -> cl_conn c <> None -> prereg (cl_type c) = true -> List.length (cl_id c) < 32.
Proof.
  intros s h c L U A N P. pose proof (live_conf _ L) as (CO & _). unfold CLIENT_NICK_LEN in CO. destruct (live_inick _ L U _ _ A) as [Q|[Q|[[Q _]|Q]]]; [congruence|congruence|rewrite Q; cbn; lia|].
  unfold valid_nick in Q. rewrite !andb_true_iff in Q. destruct Q as [[_ Q] _]. apply Nat.ltb_lt in Q. lia.
Qed.
Lemma mask_full : forall s i h c, live s -> undisturbed s -> client_of s i h c -> cl_type c = T_USER -> mask_of c (cl_host c) = full_mask c.
Proof.
  intros s i h c L U [(cn & C1 & C3) C2] T. rewrite lookup_assoc in C1, C2. unfold mask_of, full_mask. apply firstn_all2.
  destruct (live_icli _ L _ _ C2) as [_ _ Z _ _]. destruct Z.
  assert (List.length (cl_id c) < 32).
  { eapply nick_short; eauto; [|rewrite T; reflexivity]. destruct (tr_c2h _ (live_itree _ L U) _ _ C1) as (h' & c' & K1 & K2 & K3). rewrite C3 in K1. injection K1 as <-. rewrite C2 in K2. injection K2 as <-. congruence. }
  rewrite app_length. cbn [List.length]. rewrite app_length. cbn [List.length]. unfold CLIENT_USER_LEN, CLIENT_HOST_LEN, GETID_LEN in *. lia.
Qed.
Lemma only_oper_gains : forall s i h c text b s', live s -> undisturbed s -> client_of s i h c -> cl_type c <> T_SERVER ->
  ~ In "o"%char (cf_defusermodes (s_conf s)) -> Parse_Request i text s = Ok b s' ->
  forall j d d', lookup j (s_heap s) = Some d -> lookup j (s_heap s') = Some d' -> ~ In "o"%char (cl_modes d) -> In "o"%char (cl_modes d') -> j = h /\ cl_type c = T_USER /\ oper_login s c text.
Proof.
  intros s i h c text b s' L U C T DM H j d d' J J' N O. rewrite lookup_assoc in J, J'. pose proof (live_wf _ L) as W.
  assert (F : also wf (byH no_gain s) s s' -> False).
  { intro F. destruct (F W) as [_ F1]. destruct (F1 byH_refl) as (_ & _ & F2). destruct (F2 j d') as (d0 & A0 & G); auto. { eapply wf_lt; eauto. } rewrite J in A0. injection A0 as <-. apply N, G, O. }
  destruct (line_cases _ _ _ _ _ _ _ C H) as [A|[[Q (req & HN)]|(cmd & req & s1 & R)]].
  - destruct F. eapply answered_X; [exact _..|exact A].
  - destruct F. eapply (Handle_Numeric_relp (X := also wf (byH no_gain s))); [|exact HN]. destruct C as [_ C]. rewrite lookup_assoc in C. exists c. auto.
  - destruct (cr_prep _ _ _ _ _ _ _ _ _ _ R) as (s2 & W2 & E2).
    pose proof (prepared_X (also wf (byH no_gain s)) _ _ _ _ _ (cr_prep _ _ _ _ _ _ _ _ _ _ R)) as P.
    destruct (existsb (String.eqb (cm_name cmd)) ["MODE"; "OPER"]%string) eqn:E.
    + pose proof C as [_ C2]. rewrite lookup_assoc in C2. destruct (wr_cli _ _ _ _ W2 C2) as (x & C3). assert (C4 : assoc h (s_heap s1) = Some (set_cl_cloaked x c)) by (subst s1; exact C3).
      cbn [existsb] in E. rewrite !orb_true_iff in E. destruct E as [E|[E|E]]; [| |discriminate E]; apply String.eqb_eq in E; pose proof (cr_run _ _ _ _ _ _ _ _ _ _ R) as RUN.
      * rewrite (cmd_MODE _ (cr_in _ _ _ _ _ _ _ _ _ _ R) E) in RUN. cbn [cm_fun] in RUN. destruct F. transitivity s1; auto. eapply IRC_MODE_no; [|exact RUN]. right. split; [exists (set_cl_cloaked x c); auto|].
        destruct (rq_prefix req) as [p|] eqn:RP; auto. pose proof (own_prefix _ _ _ _ _ (live_itree _ L U) C T (cr_pre _ _ _ _ _ _ _ _ _ _ R) p RP) as S. subst s1.
        eapply ks_Client_Search; [|exact S]. eapply prepared_X; [exact _..|exists s2; auto].
      * pose proof (cmd_OPER _ (cr_in _ _ _ _ _ _ _ _ _ _ R) E) as EC. assert (TU : cl_type c = T_USER).
        { pose proof (cr_type _ _ _ _ _ _ _ _ _ _ R) as TY. rewrite EC in TY. cbn in TY. destruct (cl_type c); try discriminate TY; auto. }
        rewrite EC in RUN. cbn [cm_fun] in RUN. destruct (OPER_gain _ _ _ _ _ _ C4 T RUN _ _ J' O) as [(c0 & A0 & O0)|(-> & op & I & E3 & E4 & M)].
        -- exfalso. subst s1. cbn [s_heap set_s_wcounter] in A0. destruct (wr_cli_back _ _ _ _ W2 A0) as (c1 & z & A1 & ->). rewrite J in A1. injection A1 as <-. auto.
        -- split; auto. split; auto. exists op. pose proof (cr_min _ _ _ _ _ _ _ _ _ _ R) as MI. pose proof (cr_max _ _ _ _ _ _ _ _ _ _ R) as MA. rewrite EC in MI, MA. cbn in MI, MA. specialize (MA 2 eq_refl).
           destruct (cr_parse _ _ _ _ _ _ _ _ _ _ R) as (p & PL). unfold argc in MI, MA. unfold arg in E3, E4. destruct (rq_args req) as [|a0 [|a1 [|a2 r]]] eqn:RA; cbn in MI, MA, E3, E4; try lia.
           split; [|split].
           ++ exists p, (rq_command req). subst a0 a1. split; auto. pose proof (cr_name _ _ _ _ _ _ _ _ _ _ R) as NM. rewrite E in NM. exact NM.
           ++ subst s1. cbn [s_conf set_s_wcounter] in I. destruct (wr_same _ _ W2) as []. congruence.
           ++ rewrite <- (mask_full _ _ _ _ L U C TU). exact M.
    + destruct F. transitivity s1; auto. eapply (others_use _ _ cmd); [apply others_gain; auto|apply R|exact E|apply R|apply R].
Qed.
(** nothing else makes an operator *)
Lemma chore_no_gain : forall s s' j d d', live s -> chore s s' -> lookup j (s_heap s) = Some d -> lookup j (s_heap s') = Some d' -> In "o"%char (cl_modes d') -> In "o"%char (cl_modes d).
Proof.
  intros s s' j d d' L H J J' O. rewrite lookup_assoc in J, J'. assert (F : also wf (byH no_gain s) s s') by (apply chore_rel; exact H).
  destruct (F (live_wf _ L)) as [_ F1]. destruct (F1 byH_refl) as (_ & _ & F2). destruct (F2 j d') as (d0 & A0 & G); auto. { eapply wf_lt; eauto. apply live_wf; auto. } rewrite J in A0. injection A0 as <-. apply G, O.
Qed.
Lemma silent_no_gain : forall s e s' j d d', live s -> silent e = true -> step e s = Ok tt s' -> lookup j (s_heap s) = Some d -> lookup j (s_heap s') = Some d' -> In "o"%char (cl_modes d') -> In "o"%char (cl_modes d).
Proof.
  intros s e s' j d d' L S H J J' O. rewrite lookup_assoc in J, J'. assert (F : also wf (byH no_gain s) s s') by (revert H; apply step_rel_silent; exact S).
  destruct (F (live_wf _ L)) as [_ F1]. destruct (F1 byH_refl) as (_ & _ & F2). destruct (F2 j d') as (d0 & A0 & G); auto. { eapply wf_lt; eauto. apply live_wf; auto. } rewrite J in A0. injection A0 as <-. apply G, O.
Qed.

(** ---- over an event ---- *)
#[export] Instance any_CR : CR (fun _ _ => True). Proof. split; auto. Qed.
#[export] Instance any_CS : forall l, CS l (fun _ _ => True). Proof. intros l c c' _. exact I. Qed.
Lemma actions_any : forall s0 s, actions s0 s -> wf s0 -> byH (fun _ _ => True) s0 s /\ wf s.
Proof.
  intros s0 s A W. assert (G : forall a b, actions a b -> also wf (byH (fun _ _ => True) s0) a b).
  { intros a b H. induction H as [x|x y z Lx Ax H IH]; [reflexivity|]. transitivity y; auto. apply (action_rel (X := also wf (byH (fun _ _ => True) s0))). auto. }
  destruct (G _ _ A W) as [G1 G2]. split; auto. apply G2, byH_refl.
Qed.
Lemma operator_dec : forall h s, {operator s h} + {~ operator s h}.
Proof.
  intros h s. unfold operator. destruct (lookup h (s_heap s)) as [c|]; [|right; intros (x & E & _); discriminate].
  destruct (in_dec ascii_dec "o"%char (cl_modes c)); [left; eauto|right; intros (x & E & K); congruence].
Qed.
Lemma event_gain : forall e s s' h, live s -> undisturbed s' -> ~ In "o"%char (cf_defusermodes (s_conf s)) -> (exists c, lookup h (s_heap s) = Some c) ->
  step e s = Ok tt s' -> ~ operator s h -> operator s' h ->
  exists i h' c text b s1 s2, live s1 /\ actions s s1 /\ client_of s1 i h' c /\ Parse_Request i text s1 = Ok b s2 /\ actions s2 s' /\ s_conf s1 = s_conf s /\
    (cl_type c = T_SERVER \/ (h' = h /\ oper_login s1 c text)).
Proof.
  intros e s s' h L U DM (d & K) H N Y.
  assert (Lt : h < s_next s). { rewrite lookup_assoc in K. eapply wf_lt; eauto. apply live_wf; auto. }
  destruct (by_a_line (fun s => s_next s <= h \/ operator s h)) with (e := e) (s := s) (s' := s') as (i & h' & c & text & b & s1 & s2 & L1 & U1 & A1 & C & P & A2 & N1 & Y1); auto.
  - intro x. destruct (le_dec (s_next x) h); [left; auto|]. destruct (operator_dec h x); [left; auto|right; intros [|]; auto].
  - intros x x' Lx Cx Nx [Yx|(d' & J' & O')].
    + apply Nx. left. assert (F : also wf (byH (fun _ _ => True) x) x x') by (apply chore_rel; exact Cx). destruct (F (live_wf _ Lx)) as [_ F1]. destruct (F1 byH_refl) as (_ & F2 & _). lia.
    + assert (F : also wf (byH no_gain x) x x') by (apply chore_rel; exact Cx). destruct (F (live_wf _ Lx)) as [_ F1]. destruct (F1 byH_refl) as (_ & F2 & F3).
      rewrite lookup_assoc in J'. destruct (F3 h d') as (d0 & A0 & G); auto. { destruct (le_dec (s_next x) h); [exfalso; auto|lia]. } apply Nx. right. exists d0. rewrite lookup_assoc. auto.
  - intros ev x x' Lx Sx Cx Nx [Yx|(d' & J' & O')].
    + apply Nx. left. assert (F : also wf (byH (fun _ _ => True) x) x x') by (revert Cx; apply step_rel_silent; exact Sx). destruct (F (live_wf _ Lx)) as [_ F1]. destruct (F1 byH_refl) as (_ & F2 & _). lia.
    + assert (F : also wf (byH no_gain x) x x') by (revert Cx; apply step_rel_silent; exact Sx). destruct (F (live_wf _ Lx)) as [_ F1]. destruct (F1 byH_refl) as (_ & F2 & F3).
      rewrite lookup_assoc in J'. destruct (F3 h d') as (d0 & A0 & G); auto. { destruct (le_dec (s_next x) h); [exfalso; auto|lia]. } apply Nx. right. exists d0. rewrite lookup_assoc. auto.
  - intros [Q|Q]; [lia|auto].
  - destruct (actions_any _ _ A1 (live_wf _ L)) as [(F1 & F2 & F3) W1].
    exists i, h', c, text, b, s1, s2. repeat (split; [assumption|]).
    destruct (ctype_eqb (cl_type c) T_SERVER) eqn:T. { left. apply ctype_eqb_eq; auto. } right.
    assert (T' : cl_type c <> T_SERVER) by (intro E; rewrite E in T; discriminate T).
    assert (F4 : also wf (byH (fun _ _ => True) s1) s1 s2) by (apply action_rel; eapply A_line; eauto). destruct (F4 W1) as [_ F5]. destruct (F5 byH_refl) as (_ & F6 & F7).
    destruct Y1 as [Y1|(d' & J' & O')]; [exfalso; apply N1; left; lia|].
    pose proof J' as J2. rewrite lookup_assoc in J'. destruct (F7 h d') as (d0 & A0 & _); auto. { lia. }
    destruct (only_oper_gains s1 i h' c text b s2) with (j := h) (d := d0) (d' := d') as (E1 & E2 & E3); auto.
    + rewrite F1; auto.
    + intro E. apply N1. right. exists d0. rewrite lookup_assoc. auto.
Qed.
