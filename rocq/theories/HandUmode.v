(** What is told about the modes of users: MODE and AWAY (C28). *)
From Coq Require Import List Ascii String ZArith NArith Bool Lia Arith.
From Coq Require Import Relations RelationClasses.
From Verif Require Import Bytes Strl Match Lists ListsProofs Hash ParseReq State Messages Monad Core Write Info Chan Mode Msg Login Oper Server Dispatch Conn.
From Verif Require Import Rel RelWrite RelInfo RelBase RelChan RelSrv RelInit RelKey RelCmd RelComp WF RelGone Frame Tree Inv1 Inv2 Inv3 Inv4 Live Spec Observ Unch HandOper HandPrefix HandLine Frames Attrib HandGain HandUser HandChan HandJoin HandKick Output HandDo HandSend SpecMore SpecLink HandCast SpecNick HandNick SpecSync HandSync SpecJoin HandJoined SpecMode SpecInvite HandInvited HandTell SpecUmode.
Import ListNotations.
Local Open Scope m_scope.

(** client [g] was changed to [e] *)
Record tuned (g : handle) (e : client) (s s' : state) : Prop := mk_tuned {
  tu_conf : s_conf s' = s_conf s; tu_clients : s_clients s' = s_clients s; tu_conns : s_conns s' = s_conns s; tu_num : s_numconn s' = s_numconn s;
  tu_out : s_out s' = s_out s; tu_keys : map fst (s_heap s') = map fst (s_heap s);
  tu_mine : assoc g (s_heap s') = Some e; tu_others : forall x, x <> g -> assoc x (s_heap s') = assoc x (s_heap s) }.
Lemma tuned_refl : forall g e s, assoc g (s_heap s) = Some e -> tuned g e s s.
Proof. intros. split; auto. Qed.
Lemma tuned_trans : forall g e e' a b c, tuned g e a b -> tuned g e' b c -> tuned g e' a c.
Proof. intros g e e' a b c [] []. split; try congruence. intros x N. rewrite tu_others1, tu_others0; auto. Qed.
Lemma upd_tuned : forall g f s u s' e, assoc g (s_heap s) = Some e -> upd_cli g f s = Ok u s' -> tuned g (f e) s s'.
Proof.
  intros g f s u s' e A H. apply upd_cli_ok in H. destruct H as (e' & _ & ->). split; auto; cbn [s_heap set_s_heap].
  - apply aupd_keys.
  - rewrite assoc_aupd, Nat.eqb_refl, A. reflexivity.
  - intros x N. rewrite assoc_aupd. destruct (Nat.eqb_spec g x); congruence.
Qed.
Lemma tuned_tree : forall g e e' s s', assoc g (s_heap s) = Some e -> ctree e e' -> tuned g e' s s' -> tree s -> tree s'.
Proof.
  intros g e e' s s' A C []. apply tree_cli; auto.
  - intro h. destruct (Nat.eq_dec h g) as [-> |N]; [rewrite A, tu_mine0; exact C|]. rewrite tu_others0 by auto. destruct (assoc h (s_heap s)); cbn; auto. repeat split. auto.
  - split; auto; [congruence|]. intro i. rewrite tu_conns0. apply orel_refl, co_key_refl.
Qed.
Lemma tuned_link : forall g e e' s s' j x, assoc g (s_heap s) = Some e -> cl_type e = T_USER -> cl_type e' = T_USER -> tuned g e' s s' -> (link s' j x <-> link s j x).
Proof.
  intros g e e' s s' j x A T1 T2 U. unfold link. split; intros (y & [K1 K2] & TS & CJ); exists y; rewrite lookup_assoc in K2; (assert (N : y <> g) by (intros ->; first [rewrite (tu_mine _ _ _ _ U) in K2|rewrite A in K2]; injection K2 as <-; congruence));
    (split; [split; [first [rewrite (tu_clients _ _ _ _ U)|rewrite <- (tu_clients _ _ _ _ U)]; exact K1|rewrite lookup_assoc; first [rewrite <- (tu_others _ _ _ _ U) by exact N; exact K2|rewrite (tu_others _ _ _ _ U) by exact N; exact K2]]|auto]).
Qed.
Lemma tuned_open : forall g e s s' j, tuned g e s s' -> is_open s' j = is_open s j.
Proof. intros g e s s' j U. unfold is_open. rewrite (tu_conns _ _ _ _ U). reflexivity. Qed.

(** a line for all servers but one *)
Lemma to_servers : forall except u d f l vals s w s', tree s -> NoDup (s_clients s) -> assoc u (s_heap s) = Some d -> cl_id d <> [] -> prints l s vals ->
  IRC_WriteStrServersPrefix except u f l s = Ok w s' ->
  view s s' /\ forall j, (is_open s j = true -> forall x, link s j x -> (forall g, except = Some g -> assoc g (s_heap s) <> Some x) -> written s s' j [relayed d (fmt (B f) vals)]) /\
    ((forall x, link s j x -> exists g, except = Some g /\ assoc g (s_heap s) = Some x) -> written s s' j []).
Proof.
  intros except u d f l vals s w s' T NC AU NI P H. unfold IRC_WriteStrServersPrefix in H. eapply cast in H; [|exact T|exact NC|exact AU|exact P]. destruct H as (V & _ & G). split; auto. intro j. destruct (G j) as [G1 G2]. split.
  - intros OP x (g & [K1 K2] & TS & CJ) NX. rewrite lookup_assoc in K2. rewrite fits_type_id in G1 by exact NI. apply (G1 OP g). exists x. split; auto. split; auto. split; auto. split; auto. intro E. exact (NX g E K2).
  - intro X. apply G2. intros OP g (x & A & TS & CJ & NE & _). destruct (X x) as (g' & E & A'). { exists g. split; auto. split; [eapply tr_listed; eauto|rewrite lookup_assoc; exact A]. }
    (* the same connection, the same client *)
    assert (C' : cl_conn x = Some j) by exact CJ. destruct (conn_client _ _ _ _ _ _ T A A' CJ C') as [E' _]. subst g'. contradiction.
Qed.
Theorem away_told : forall s i h c text args b s', live s -> undisturbed s -> server_settled s -> client_of s i h c -> cl_type c = T_USER -> orders s text "AWAY" args -> nick_fits c -> settled c -> (List.length args <= 1)%nat ->
  Parse_Request i text s = Ok b s' ->
  let away := match args with [m] => negb (beq m []) | _ => false end in
  (forall j x, link s j x -> is_open s j = true -> written s s' j [relayed c (B "MODE " ++ cl_id c ++ B " :" ++ sign_of away :: B "a")]) /\
  (forall j, (forall x, ~ link s j x) -> i <> j -> written s s' j []).
Proof.
  intros s i h c text args b s' L U SS C TU OR NF S LA H away. assert (AC : acts s h c text "AWAY" args h c) by (left; auto). destruct (actor _ _ _ _ _ _ _ _ _ L U C AC NF) as (T & KY & NC & AH & CI & AU & TD & F & NU & NX).
  eapply run_as in H; [|exact L|exact C|exact AC|exact NF|reflexivity|rewrite TU; reflexivity|cbn; lia|intros m E; cbn in E; first [discriminate E|injection E as <-; cbn; lia]].
  destruct H as (req & s1 & V & O1 & SN & EA & H & Q). change (IRC_AWAY h req s1 = Ok b s') in H.
  assert (AH1 : assoc h (s_heap s1) = Some c) by (rewrite (v_heap _ _ V); exact AH). pose proof (view_tree _ _ V T) as T1.
  assert (TO : toward s h i). { destruct (tr_me _ T) as (me & M1 & M2 & _). exists h, c, me. split; [exact NX|]. split; [exact AH|]. split; [exact CI|]. split; [exact M1|]. apply SS. rewrite lookup_assoc. exact M1. }
  pose proof (toward_view _ _ _ _ V TO) as TO1.
  (* the change, what the servers get, the answer *)
  assert (FIN : forall s2 e' w s3 f b' f0, tuned h e' s1 s2 -> cl_id e' = cl_id c -> ctree c e' -> cl_type e' = T_USER ->
    IRC_WriteStrServersPrefix (Some h) h f0 [aID h] s2 = Ok w s3 -> IRC_WriteStrClient h f [aID h] s3 = Ok b' s' ->
    (forall j x, link s j x -> is_open s j = true -> written s s' j [relayed c (fmt (B f0) [FS (cl_id c)])]) /\ (forall j, (forall x, ~ link s j x) -> i <> j -> written s s' j [])).
  { intros s2 e' w s3 f b' f0 TN EI CT TE W1 W2. pose proof (tuned_tree _ _ _ _ _ AH1 CT TN T1) as T2.
    assert (LK : forall j x, link s2 j x <-> link s j x). { intros j x. rewrite (tuned_link h c e' s1 s2 j x AH1 TU TE TN). unfold link, known. rewrite (v_clients _ _ V), (v_heap _ _ V). reflexivity. }
    assert (NI : cl_id e' <> []) by (rewrite EI; apply NF).
    assert (PI : prints [aID h] s2 [FS (cl_id c)]). { rewrite <- EI, <- (fits_type_id _ NI). apply prints_ID; [apply TN|apply prints_nil]. }
    eapply to_servers in W1; [|exact T2|rewrite (tu_clients _ _ _ _ TN), (v_clients _ _ V); exact NC|apply TN|exact NI|exact PI]. destruct W1 as [V3 G].
    assert (TO3 : toward s3 h i). { destruct (tr_me _ T2) as (me & M1 & M2 & _). exists h, e', me. rewrite (v_heap _ _ V3). assert (NH : h <> This_Server) by exact NU.
      split; [|split; [apply TN|split; [destruct CT as (-> & _); exact CI|split; [exact M1|]]]].
      - eapply view_next; [apply (v_heap _ _ V3)|]. eapply NH_direct; [rewrite lookup_assoc; apply TN|]. destruct CT as (_ & -> & _). destruct (tr_local _ T _ _ _ AH CI); auto.
      - apply SS. rewrite lookup_assoc, <- (v_heap _ _ V), <- (tu_others _ _ _ _ TN) by congruence. exact M1. }
    assert (OT : only_to i s3 s') by (eapply reply_only; [exact TO3|apply (prints_ID h e'); [rewrite (v_heap _ _ V3); apply TN|apply prints_nil]|exact W2]).
    assert (RC : forall t, relayed e' t = relayed c t) by (intro; unfold relayed; rewrite EI; reflexivity).
    assert (OP : forall j, is_open s2 j = is_open s j) by (intro j; rewrite (tuned_open _ _ _ _ j TN); apply view_open; exact V).
    assert (K0 : forall y, written s s2 y []) by (intro; apply written_nil; rewrite (tu_out _ _ _ _ TN); exact O1).
    split.
    - intros j x LJ OJ. destruct (G j) as [G1 _]. change [relayed c (fmt (B f0) [FS (cl_id c)])] with (([] ++ [relayed c (fmt (B f0) [FS (cl_id c)])]) ++ []). eapply written_app; [eapply written_app; [apply K0|]|].
      + rewrite <- RC. apply (G1 ltac:(rewrite OP; exact OJ) x); [apply LK; exact LJ|]. intros g E A. injection E as <-. rewrite (tu_mine _ _ _ _ TN) in A. injection A as <-. destruct LJ as (g & _ & X & _). congruence.
      + eapply only_to_written; [exact OT|]. intros ->. destruct LJ as (g & [_ K] & X & Y). rewrite lookup_assoc in K. destruct (conn_client _ _ _ _ _ _ T K AH Y CI) as [_ E]. congruence.
    - intros j NL NE. change (@nil bytes) with ((@nil bytes ++ []) ++ []). eapply written_app; [eapply written_app; [apply K0|]|eapply only_to_written; [exact OT|congruence]].
      apply G. intros x X. apply LK in X. destruct (NL x X). }
  unfold IRC_AWAY, argc, arg in H. rewrite EA in H. assert (EC : ((List.length args =? 1) && negb (beq (nth 0 args []) [])) = away).
  { unfold away. destruct args as [|m [|m' r]]; [reflexivity|reflexivity|cbn in LA; lia]. }
  rewrite EC in H. destruct away.
  - bd H as u1 s2 H1. pose proof (upd_tuned _ _ _ _ _ _ AH1 H1) as TN1. bd H as u2 s3 H2. bd H2 as u3 s4 H3. apply ret_ok in H2. destruct H2 as [_ ->].
    unfold Client_ModeAdd in H3. bd H3 as c1 s5 H4. apply cli_ok in H4. destruct H4 as [A1 ->]. rewrite (tu_mine _ _ _ _ TN1) in A1. injection A1 as <-. destruct (mode_add _ _) as [ms q] eqn:MA. bd H3 as u4 s6 H4. apply ret_ok in H3. destruct H3 as [_ ->].
    pose proof (upd_tuned _ _ _ _ _ _ (tu_mine _ _ _ _ TN1) H4) as TN2. pose proof (tuned_trans _ _ _ _ _ _ TN1 TN2) as TN. bd H as w s7 H5.
    match type of TN with tuned _ ?e _ _ => assert (EI : cl_id e = cl_id c) by reflexivity; assert (CT : ctree c e) by (repeat split; auto); assert (TE : cl_type e = T_USER) by exact TU end.
    exact (FIN _ _ _ _ _ _ _ TN EI CT TE H5 H).
  - bd H as u2 s3 H2. bd H2 as u3 s4 H3. apply ret_ok in H2. destruct H2 as [_ ->].
    unfold Client_ModeDel in H3. bd H3 as c1 s5 H4. apply cli_ok in H4. destruct H4 as [A1 ->]. rewrite AH1 in A1. injection A1 as <-. destruct (mode_del _ _) as [ms q] eqn:MA. bd H3 as u4 s6 H4. apply ret_ok in H3. destruct H3 as [_ ->].
    pose proof (upd_tuned _ _ _ _ _ _ AH1 H4) as TN. bd H as w s7 H5.
    match type of TN with tuned _ ?e _ _ => assert (EI : cl_id e = cl_id c) by reflexivity; assert (CT : ctree c e) by (repeat split; auto); assert (TE : cl_type e = T_USER) by exact TU end.
    exact (FIN _ _ _ _ _ _ _ TN EI CT TE H5 H).
Qed.

(** ** MODE *)
Lemma umode_applied : forall g (add : bool) x s r s1 e, x <> NUL -> assoc g (s_heap s) = Some e -> List.length (cl_modes e) < 20 -> NoDup (cl_modes e) ->
  (if add then Client_ModeAdd g x else Client_ModeDel g x) s = Ok r s1 ->
  r = negb (Bool.eqb (memb x (cl_modes e)) add) /\
  exists ms, tuned g (set_cl_modes ms e) s s1 /\ NoDup ms /\ List.length ms <= Datatypes.S (List.length (cl_modes e)) /\ forall y, In y ms <-> if Ascii.eqb y x then add = true else In y (cl_modes e).
Proof.
  intros g add x s r s1 e NX AG LN ND H. destruct add.
  - unfold Client_ModeAdd in H. bd H as c1 s2 H1. apply cli_ok in H1. destruct H1 as [A1 ->]. rewrite AG in A1. injection A1 as <-. rewrite (mode_add_exact _ _ NX LN) in H. destruct (memb x (cl_modes e)) eqn:E; bd H as v s2 H1; apply ret_ok in H; destruct H as [-> ->]; pose proof (upd_tuned _ _ _ _ _ _ AG H1) as TN; (split; [reflexivity|]); (eexists; split; [exact TN|]).
    + split; auto. split; [lia|]. intro y. apply memb_In in E. destruct (Ascii.eqb_spec y x); [subst; tauto|reflexivity].
    + split; [|split; [rewrite app_length; cbn; lia|]].
      * apply NoDup_snoc; auto. intro X. apply memb_In in X. congruence.
      * intro y. rewrite in_app_iff. destruct (Ascii.eqb_spec y x) as [-> |NE]; [split; auto; intros _; right; left; reflexivity|]. split; [intros [X|[X|[]]]; auto; congruence|auto].
  - unfold Client_ModeDel in H. bd H as c1 s2 H1. apply cli_ok in H1. destruct H1 as [A1 ->]. rewrite AG in A1. injection A1 as <-. rewrite (mode_del_exact _ _ NX) in H. destruct (memb x (cl_modes e)) eqn:E; bd H as v s2 H1; apply ret_ok in H; destruct H as [-> ->]; pose proof (upd_tuned _ _ _ _ _ _ AG H1) as TN; (split; [reflexivity|]); (eexists; split; [exact TN|]).
    + split; [apply del_first_NoDup; auto|]. split; [clear; induction (cl_modes e) as [|y l IH]; cbn; [lia|destruct (Ascii.eqb y x); cbn in *; lia]|]. intro y. destruct (Ascii.eqb_spec y x) as [-> |NE]; [split; [intro X; destruct (del_first_not _ _ ND X)|discriminate]|]. split; [apply del_first_In|intro X; apply Inv3.del_first_keep; auto].
    + split; auto. split; [lia|]. assert (N : ~ In x (cl_modes e)) by (intro X; apply memb_In in X; congruence). intro y. destruct (Ascii.eqb_spec y x) as [-> |NE]; [split; [contradiction|discriminate]|reflexivity].
Qed.
Lemma umode_plain : forall c d add x, may_umode c d add x -> plusminus x = false /\ x <> NUL /\ x <> "x"%char.
Proof.
  intros c d add x [[_ [H|[[H _]|[[H _]|[H _]]]]]|[_ H]].
  - cbn in H. repeat (destruct H as [<- |H]; [split; [reflexivity|split; discriminate]|]). destruct H.
  - cbn in H. repeat (destruct H as [<- |H]; [split; [reflexivity|split; discriminate]|]). destruct H.
  - subst. split; [reflexivity|split; discriminate].
  - subst. split; [reflexivity|split; discriminate].
  - cbn in H. split; [|split; intros ->; tauto]. unfold plusminus. destruct (Ascii.eqb_spec x "+"); [subst; tauto|]. destruct (Ascii.eqb_spec x "-"); [subst; tauto|]. reflexivity.
Qed.
Lemma user_letter_ok : forall h u c d0 (add : bool) x s r s1 du, assoc h (s_heap s) = Some c -> assoc u (s_heap s) = Some du -> may_umode c d0 add x -> (cl_type c = T_USER -> In "o"%char (cl_modes d0) -> add = true -> In "o"%char (cl_modes du)) ->
  user_letter h u add x s = Ok r s1 -> s1 = s /\ r = (true, Some x, false).
Proof.
  intros h u c d0 add x s r s1 du AH AU M MO H. pose proof (umode_plain _ _ _ _ M) as (PX & NX & XX). unfold user_letter in H. cbv zeta in H. bd H as srv s2 H1. apply is_type_ok in H1. destruct H1 as (-> & c1 & A1 & ->). rewrite AH in A1. injection A1 as <-.
  destruct (memb x (B "bCiIsw")) eqn:E1; [apply ret_ok in H; destruct H; auto|].
  destruct M as [[TU M]|[TS M]].
  - rewrite TU in H. change (ctype_eqb T_USER T_SERVER) with false in H. destruct M as [M|[[M MA]|[[-> ->]|[-> ->]]]].
    + apply memb_In in M. congruence.
    + assert (Z : Ascii.eqb x "a" = false /\ Ascii.eqb x "B" = false /\ memb x (B "cqF") = true) by (clear - M; cbn in M; repeat (destruct M as [<- |M]; [repeat split|]); destruct M). destruct Z as (Z1 & Z2 & Z3). rewrite Z1, Z2, Z3 in H.
      bd H as op s2 H1. apply HasMode_ok in H1. destruct H1 as (-> & d1 & A1 & ->). rewrite AU in A1. injection A1 as <-. destruct add; [|apply ret_ok in H; destruct H; auto]. rewrite (proj2 (strchr0_iff "o" (cl_modes du) ltac:(discriminate)) (MO TU (MA eq_refl) eq_refl)) in H. apply ret_ok in H. destruct H; auto.
    + apply ret_ok in H. destruct H; auto.
    + apply ret_ok in H. destruct H; auto.
  - rewrite TS in H. change (ctype_eqb T_SERVER T_SERVER) with true in H. cbn [negb orb] in H. cbn in M.
    destruct (Ascii.eqb_spec x "a"); [subst; tauto|]. destruct (Ascii.eqb_spec x "B"); [subst; tauto|]. destruct (memb x (B "cqF")).
    { bd H as op s2 H1. apply HasMode_ok in H1. destruct H1 as (-> & _). rewrite orb_true_r in H. apply ret_ok in H. destruct H; auto. }
    destruct (Ascii.eqb_spec x "o"); [rewrite orb_true_r in H; apply ret_ok in H; destruct H; auto|]. destruct (Ascii.eqb_spec x "r"); [rewrite orb_true_r in H; apply ret_ok in H; destruct H; auto|].
    destruct (Ascii.eqb_spec x "R"); [apply ret_ok in H; destruct H; auto|]. destruct (Ascii.eqb_spec x "x"); [contradiction|]. apply ret_ok in H. destruct H as [-> ->]. split; auto. destruct (Ascii.eqb_spec x NUL); [contradiction|reflexivity].
Qed.
Lemma may_type : forall c c' d add x, cl_type c' = cl_type c -> may_umode c d add x -> may_umode c' d add x.
Proof. intros c c' d add x E M. unfold may_umode. rewrite E. exact M. Qed.
Lemma uchanged_cons : forall ms ms' add x fs, ~ In x fs -> (forall y, In y ms' <-> if Ascii.eqb y x then add = true else In y ms) ->
  uchanged ms add (x :: fs) = (if negb (Bool.eqb (memb x ms) add) then [x] else []) ++ uchanged ms' add fs.
Proof.
  intros ms ms' add x fs N Q. assert (E : uchanged ms add fs = uchanged ms' add fs).
  { apply filter_ext_in. intros y IY. f_equal. f_equal. apply eq_true_iff_eq. rewrite !memb_In. rewrite Q. destruct (Ascii.eqb_spec y x); [subst; contradiction|reflexivity]. }
  cbn [uchanged filter]. fold (uchanged ms add fs). rewrite E. destruct (negb _); reflexivity.
Qed.
Lemma umodes_loop : forall h u g c d0 (add : bool) n fs y s r s' acc e, (exists c', assoc h (s_heap s) = Some c' /\ cl_type c' = cl_type c) -> cl_type c = T_USER /\ u = h /\ g = h \/ cl_type c = T_SERVER -> (exists du, assoc u (s_heap s) = Some du) ->
  assoc g (s_heap s) = Some e -> NoDup (cl_modes e) -> NoDup fs -> List.length (cl_modes e) + List.length fs <= 20 -> (forall x, In x fs -> may_umode c d0 add x) ->
  (cl_type c = T_USER -> In "o"%char (cl_modes d0) -> add = true -> In "o"%char (cl_modes e)) -> List.length acc + List.length fs <= 500 ->
  user_modes n h u g (y :: fs) [] add acc false s = Ok r s' ->
  r = (true, acc ++ uchanged (cl_modes e) add fs, false) /\ exists ms, tuned g (set_cl_modes ms e) s s' /\ forall x, In x ms <-> if memb x fs then add = true else In x (cl_modes e).
Proof.
  intros h u g c d0 add. induction n as [|n IH]; intros fs y s r s' acc e (c' & AH & TC) TY (du & AU) AG ND NF LN M MO LA H; cbn [user_modes] in H; [discriminate H|].
  bd H as nx s1 H1. destruct fs as [|x fs]; cbn [next_mode] in H1; apply ret_ok in H1; destruct H1 as [-> ->].
  - apply ret_ok in H. destruct H as [-> ->]. cbn [uchanged filter]. rewrite app_nil_r. split; auto. exists (cl_modes e). split; [|intro; reflexivity]. replace (set_cl_modes (cl_modes e) e) with e by (destruct e; reflexivity). apply tuned_refl; auto.
  - cbv zeta in H. cbn [hd0] in H. pose proof (M x (or_introl eq_refl)) as MX. destruct (umode_plain _ _ _ _ MX) as (PX & NX & _). rewrite PX in H.
    bd H as q s1 H1. eapply (user_letter_ok h u c' d0 add x) in H1; [|exact AH|exact AU|eapply may_type; eauto|].
    2: { intros T1 O1 A1. rewrite TC in T1. destruct TY as [(_ & -> & ->)|TS]; [|congruence]. rewrite AG in AU. injection AU as <-. auto. }
    destruct H1 as [-> ->]. cbv beta iota zeta in H. cbn [orb negb] in H. bd H as r1 s2 H1. assert (LE : List.length (cl_modes e) < 20) by (cbn [List.length] in LN; lia).
    destruct (umode_applied _ _ _ _ _ _ _ NX AG LE ND H1) as (-> & ms & TN & ND2 & LM & Q). inversion NF as [|a l NF1 NF2]; subst a l. cbn [List.length] in LN, LA.
    assert (TE : forall z cz, assoc z (s_heap s) = Some cz -> exists cz', assoc z (s_heap s2) = Some cz' /\ cl_type cz' = cl_type cz).
    { intros z cz A. destruct (Nat.eq_dec z g) as [-> |N]; [rewrite AG in A; injection A as <-; exists (set_cl_modes ms e); split; [apply TN|reflexivity]|exists cz; split; auto; rewrite (tu_others _ _ _ _ TN) by auto; exact A]. }
    assert (EA : (if negb (Bool.eqb (memb x (cl_modes e)) add) then cat acc [x] else acc) = acc ++ (if negb (Bool.eqb (memb x (cl_modes e)) add) then [x] else [])) by (destruct (negb _); [apply cat_short; cbn [List.length]; lia|rewrite app_nil_r; reflexivity]).
    rewrite EA in H. eapply (IH fs x _ _ _ _ (set_cl_modes ms e)) in H.
    + destruct H as (-> & ms' & TN' & Q'). cbn [cl_modes set_cl_modes] in *. split.
      * rewrite <- app_assoc, <- (uchanged_cons _ _ _ _ _ NF1 Q). reflexivity.
      * exists ms'. split; [eapply tuned_trans; [exact TN|exact TN']|]. intro z. rewrite Q'. assert (EM : memb z (x :: fs) = Ascii.eqb z x || memb z fs) by (apply eq_true_iff_eq; rewrite orb_true_iff, !memb_In, Ascii.eqb_eq; cbn [In]; intuition congruence).
        rewrite EM. destruct (memb z fs); [rewrite orb_true_r; reflexivity|]. rewrite orb_false_r. apply Q.
    + destruct (TE _ _ AH) as (cz & A1 & A2). exists cz. split; auto. congruence.
    + exact TY.
    + destruct (TE _ _ AU) as (cz & A1 & A2). eauto.
    + apply TN.
    + exact ND2.
    + exact NF2.
    + cbn [cl_modes set_cl_modes]. lia.
    + intros z IZ. apply M. right. exact IZ.
    + intros T1 O1 A1. cbn [cl_modes set_cl_modes]. rewrite Q. destruct (Ascii.eqb_spec "o" x); auto.
    + rewrite app_length. destruct (negb _); cbn [List.length]; lia.
Qed.
Lemma tuned_shown : forall g e ms s s2 u d, assoc g (s_heap s) = Some e -> assoc u (s_heap s) = Some d -> tuned g (set_cl_modes ms e) s s2 -> (In "x"%char ms <-> In "x"%char (cl_modes e)) -> settled d -> fits d ->
  exists du, assoc u (s_heap s2) = Some du /\ settled du /\ fits du /\ cl_id du = cl_id d /\ forall x m, line_from s2 du x m = line_from s d x m.
Proof.
  intros g e ms s s2 u d AG AU TN X S F. destruct (Nat.eq_dec u g) as [-> |N].
  - rewrite AG in AU. injection AU as <-. exists (set_cl_modes ms e). split; [apply TN|]. split; [intro I; apply X in I; exact (S I)|]. split; [destruct F; split; auto|]. split; [reflexivity|].
    intros x m. unfold line_from, shown_mask, shown_host. cbn [cl_modes cl_cloaked cl_host cl_id cl_user set_cl_modes]. assert (E : memb "x" ms = memb "x" (cl_modes e)) by (apply eq_true_iff_eq; rewrite !memb_In; exact X). rewrite E.
    destruct (memb "x" (cl_modes e)) eqn:M; auto. apply memb_In in M. specialize (S M). destruct (cl_cloaked e); [reflexivity|congruence].
  - exists d. split; [rewrite (tu_others _ _ _ _ TN) by auto; exact AU|]. split; auto. split; auto. split; auto. intros x m. unfold line_from, shown_mask, shown_host. destruct (memb "x" (cl_modes d)) eqn:M; auto. apply memb_In in M. specialize (S M). destruct (cl_cloaked d); [reflexivity|congruence].
Qed.
Lemma umode_msg : forall nick add l, l <> [] -> umode_msgs nick add l = [fmt (B "MODE %s :%s") [FS nick; FS (sign_of add :: l)]].
Proof.
  intros nick add l N. assert (E : umode_msgs nick add l = [B "MODE " ++ nick ++ B " :" ++ sign_of add :: l]) by (destruct l; [congruence|reflexivity]). rewrite E. f_equal.
  change (B "MODE " ++ nick ++ B " :" ++ sign_of add :: l = B "MODE " ++ nick ++ B " :" ++ (sign_of add :: l) ++ []). rewrite app_nil_r. reflexivity.
Qed.
Theorem umode_told : forall s i h c text name add fs u d g e b s', live s -> undisturbed s -> client_of s i h c -> acts s h c text "MODE" [name; sign_of add :: fs] u d -> nick_fits d -> settled d ->
  legal_nick (cf_maxnick (s_conf s)) name -> the_client s name g e -> cl_type e = T_USER -> nick_fits e -> (cl_type c = T_USER -> g = h) ->
  NoDup (cl_modes e) -> NoDup fs -> List.length (cl_modes e) + List.length fs <= 20 -> (forall x, In x fs -> may_umode c e add x) -> Parse_Request i text s = Ok b s' ->
  let msgs := umode_msgs (cl_id e) add (uchanged (cl_modes e) add fs) in
  (forall j x, link s j x -> is_open s j = true -> written s s' j (if (i =? j)%nat then [] else map (relayed d) msgs)) /\
  (forall j, cl_conn e = Some j -> is_open s j = true -> written s s' j (map (line_from s d e) msgs)) /\
  (forall j, is_open s j = true -> (forall x, ~ link s j x) -> cl_conn e <> Some j -> written s s' j []) /\
  new_modes s s' g e add fs.
Proof.
  intros s i h c text name add fs u d g e b s' L U C AC NF S LN TC TE NE GH ND NDf LB M H msgs. destruct (actor _ _ _ _ _ _ _ _ _ L U C AC NF) as (T & KY & NC & AH & CI & AU & TD & F & NU & NX).
  assert (TY : cl_type c = T_USER /\ u = h /\ g = h \/ cl_type c = T_SERVER) by (destruct AC as [(X & _ & -> & _)|(X & _)]; auto).
  assert (TYd : cl_type c = T_USER -> d = c) by (destruct AC as [(X & _ & _ & ->)|(X & _)]; [auto|congruence]).
  assert (TYc : cl_type c = T_USER \/ cl_type c = T_SERVER) by tauto.
  eapply run_as in H; [|exact L|exact C|exact AC|exact NF|reflexivity|destruct TYc as [-> | ->]; reflexivity|cbn; lia|intros m E; cbn in E; first [discriminate E|injection E as <-; cbn; lia]].
  destruct H as (req & s1 & V & O1 & SN & EA & H & Q). change (IRC_MODE h req s1 = Ok b s') in H. pose proof (acts_req _ _ _ _ _ _ _ V Q) as Q1.
  assert (AH1 : assoc h (s_heap s1) = Some c) by (rewrite (v_heap _ _ V); exact AH). assert (AU1 : assoc u (s_heap s1) = Some d) by (rewrite (v_heap _ _ V); exact AU).
  assert (AG : assoc g (s_heap s) = Some e) by (destruct TC as [[_ K] _]; rewrite lookup_assoc in K; exact K). assert (AG1 : assoc g (s_heap s1) = Some e) by (rewrite (v_heap _ _ V); exact AG).
  unfold IRC_MODE in H. eapply sender_as in H; [|exact AH1|exact Q1]. cbv beta in H. bd H as cl s2 H1.
  assert (E : s2 = s1 /\ cl = h). { destruct Q1 as [(_ & EP & _)|(_ & p & EP & _ & SE)]; rewrite EP in H1; [apply ret_ok in H1; destruct H1; auto|]. bd H1 as o s3 H2. destruct (SE _ _ H2) as [-> ->]. apply ret_ok in H1. destruct H1 as [-> ->]. split; auto. unfold oheq, heq. destruct (Nat.eqb_spec u This_Server); [contradiction|reflexivity]. }
  destruct E as [-> ->]. clear H1. cbv zeta in H. assert (A0 : arg req 0 = name) by (unfold arg; rewrite EA; reflexivity). rewrite A0 in H.
  bd H as vn s2 H1. unfold Client_IsValidNick in H1. bd H1 as mx s3 H2. unfold cf in H2. rdgets H2. apply ret_ok in H1. destruct H1 as [-> ->]. rewrite (v_conf _ _ V), (proj2 (valid_nick_legal _ _) LN) in H.
  bd H as cl s2 H1. destruct (search_the _ _ _ _ _ _ (icli_view _ _ V (live_icli _ L)) (view_the _ _ _ _ _ V TC) (proj1 NE) H1) as [-> ->]. clear H1.
  bd H as oc s2 H1. assert (s2 = s1). { destruct (valid_chan name); [unfold Channel_Search, gets in H1; injection H1 as _ <-; reflexivity|apply ret_ok in H1; tauto]. } subst s2. clear H1.
  unfold Client_Mode in H. bd H as usr s2 H1. apply is_type_ok in H1. destruct H1 as (-> & c1 & A1 & ->). rewrite AH1 in A1. injection A1 as <-.
  assert (D : ctype_eqb (cl_type c) T_USER && negb (heq g h) = false). { destruct TY as [(TU & _ & ->)|TS]; [unfold heq; rewrite Nat.eqb_refl; apply andb_false_r|rewrite TS; reflexivity]. }
  rewrite D in H. unfold argc in H. rewrite EA in H. cbv zeta in H. change (List.length [name; sign_of add :: fs] =? 1) with false in H. cbv iota in H.
  assert (A2 : arg req 1 = sign_of add :: fs) by (unfold arg; rewrite EA; reflexivity). rewrite A2 in H. cbn [hd0 skipn] in H. assert (PS : plusminus (sign_of add) = true /\ Ascii.eqb (sign_of add) "+" = add) by (destruct add; split; reflexivity). destruct PS as [PS1 PS2]. rewrite PS1, PS2 in H. cbn [negb] in H.
  bd H as r s2 H1. eapply (umodes_loop h u g c e add) in H1; [|exists c; auto|exact TY|exists d; exact AU1|exact AG1|exact ND|exact NDf|exact LB|exact M|auto|cbn [List.length]; lia].
  destruct H1 as (-> & ms & TN & MS). cbv beta iota zeta in H. cbn [app] in H. set (ch := uchanged (cl_modes e) add fs) in *.
  assert (XN : In "x"%char ms <-> In "x"%char (cl_modes e)). { rewrite MS. destruct (memb "x" fs) eqn:EX; [|reflexivity]. apply memb_In in EX. destruct (umode_plain _ _ _ _ (M _ EX)) as (_ & _ & Z). congruence. }
  destruct (tuned_shown _ _ _ _ _ _ _ AG1 AU1 TN XN S F) as (du & AU2 & S2 & F2 & EI & LF). assert (LF' : forall x m, line_from s2 du x m = line_from s d x m) by (intros; rewrite LF; unfold line_from; rewrite (view_shown _ _ _ V); reflexivity).
  assert (CT : ctree e (set_cl_modes ms e)) by (repeat split; auto). pose proof (tuned_tree _ _ _ _ _ AG1 CT TN (view_tree _ _ V T)) as T2.
  assert (LK : forall j x, link s2 j x <-> link s j x). { intros j x. rewrite (tuned_link g e (set_cl_modes ms e) s1 s2 j x AG1 TE TE TN). unfold link, known. rewrite (v_clients _ _ V), (v_heap _ _ V). reflexivity. }
  assert (OP : forall j, is_open s2 j = is_open s j) by (intro j; rewrite (tuned_open _ _ _ _ j TN); apply view_open; exact V).
  assert (K0 : forall y, written s s2 y []) by (intro; apply written_nil; rewrite (tu_out _ _ _ _ TN); exact O1).
  assert (NM : forall s3, view s2 s3 -> new_modes s s3 g e add fs). { intros s3 V3. exists ms. split; [|exact MS]. split; [rewrite (v_clients _ _ V3), (tu_clients _ _ _ _ TN), (v_clients _ _ V); apply TC|rewrite lookup_assoc, (v_heap _ _ V3); apply TN]. }
  assert (PL : forall x, In x ch -> plusminus x = false) by (intros x IX; apply filter_In in IX; destruct IX as [IX _]; eapply umode_plain; eauto).
  unfold user_modes_reply in H. assert (IDe : id_of e = cl_id e) by (apply fits_type_id; apply NE).
  assert (EMs : msgs = umode_msgs (cl_id e) add ch) by reflexivity. clearbody msgs. clearbody ch. destruct ch as [|y ch'] eqn:EC.
  { change (has_modes [sign_of add]) with false in H. cbv iota in H. apply ret_ok in H. destruct H as [_ ->]. rewrite EMs. cbn [umode_msgs map]. split; [intros j x _ _; destruct (i =? j); apply K0|]. split; [auto|]. split; [auto|]. apply NM. reflexivity. }
  rewrite <- EC in *. assert (CN : ch <> []) by (rewrite EC; discriminate). assert (HM : has_modes (sign_of add :: ch) = true) by (rewrite EC; reflexivity). rewrite HM in H. cbv zeta in H. rewrite (clean_plain _ _ CN PL) in H.
  assert (EM : msgs = [fmt (B "MODE %s :%s") [FS (cl_id e); FS (sign_of add :: ch)]]). { rewrite EMs, EC, <- EC. apply umode_msg. exact CN. }
  set (m := fmt (B "MODE %s :%s") [FS (cl_id e); FS (sign_of add :: ch)]) in *. rewrite EM. cbn [map].
  assert (PR : forall s3, s_heap s3 = s_heap s2 -> prints [aID g; aS (sign_of add :: ch)] s3 [FS (cl_id e); FS (sign_of add :: ch)]).
  { intros s3 E3. rewrite <- IDe. change (id_of e) with (id_of (set_cl_modes ms e)). apply prints_ID; [rewrite E3; apply TN|apply prints_S, prints_nil]. }
  assert (NI : cl_id du <> []) by (rewrite EI; apply NF).
  (* the user himself *)
  assert (P1 : forall b1 s3, IRC_WriteStrClientPrefix g u "MODE %s :%s" [aID g; aS (sign_of add :: ch)] s2 = Ok b1 s3 -> (exists j, cl_conn e = Some j) ->
    view s2 s3 /\ forall j, is_open s j = true -> written s2 s3 j (if match cl_conn e with Some x => (x =? j)%nat | None => false end then [line_from s d e m] else [])).
  { intros b1 s3 W (j0 & CJ). eapply prefix_ok in W; [|exact AU2|exact S2|exact F2|exact NI|apply PR; reflexivity]. destruct W as (x & v & j1 & N1 & A1 & C1 & V3 & EB & OO).
    assert (x = g) by (exact (local_hop s2 g (set_cl_modes ms e) j0 x T2 (tu_mine _ _ _ _ TN) CJ N1)). subst x. rewrite (tu_mine _ _ _ _ TN) in A1. injection A1 as <-. change (cl_conn e = Some j1) in C1. rewrite C1. split; auto. intros j OJ. rewrite LF' in OO. rewrite OP in EB. subst b1.
    assert (LS : forall y, line_from s d (set_cl_modes ms e) y = line_from s d e y) by (intro; reflexivity). fold m in OO. rewrite LS in OO. destruct (is_open s j1) eqn:OJ1.
    - apply (written_one _ _ _ _ OO).
    - destruct (Nat.eqb_spec j1 j); [congruence|]. apply written_nil. exact OO. }
  (* the servers *)
  assert (P2 : forall s3 w s4, view s2 s3 -> IRC_WriteStrServersPrefix (Some h) u "MODE %s :%s" [aID g; aS (sign_of add :: ch)] s3 = Ok w s4 ->
    view s2 s4 /\ forall j, (is_open s j = true -> forall x, link s j x -> i <> j -> written s3 s4 j [relayed d m]) /\ ((forall x, link s j x -> i = j) -> written s3 s4 j [])).
  { intros s3 w s4 V3 W. eapply to_servers in W; [|eapply view_tree; eauto|rewrite (v_clients _ _ V3), (tu_clients _ _ _ _ TN), (v_clients _ _ V); exact NC|rewrite (v_heap _ _ V3); exact AU2|exact NI|apply PR; apply (v_heap _ _ V3)].
    destruct W as [V4 G]. split; [etransitivity; eauto|]. intro j. destruct (G j) as [G1 G2]. assert (LK3 : forall x, link s3 j x <-> link s j x) by (intro x; rewrite <- LK; unfold link, known; rewrite (v_clients _ _ V3), (v_heap _ _ V3); reflexivity). split.
    - intros OJ x LJ NE2. assert (RC : relayed du m = relayed d m) by (unfold relayed; rewrite EI; reflexivity). rewrite <- RC. apply (G1 ltac:(rewrite (view_open _ _ _ V3), OP; exact OJ) x); [apply LK3; exact LJ|].
      intros g' E A. injection E as <-. rewrite (v_heap _ _ V3) in A. destruct LJ as (z & [_ K] & X & Y). rewrite lookup_assoc in K. destruct (Nat.eq_dec h g) as [-> |NG].
      + rewrite (tu_mine _ _ _ _ TN) in A. injection A as <-. cbn [cl_type set_cl_modes] in X. congruence.
      + rewrite (tu_others _ _ _ _ TN), AH1 in A by exact NG. injection A as <-. rewrite CI in Y. injection Y as <-. congruence.
    - intro X. apply G2. intros x LJ. apply LK3 in LJ. pose proof (X x LJ) as <-. exists h. split; auto. destruct LJ as (z & [_ K] & X1 & Y). rewrite lookup_assoc in K. destruct (conn_client _ _ _ _ _ _ T K AH Y CI) as [-> ->].
      rewrite (v_heap _ _ V3), (tu_others _ _ _ _ TN); [exact AH1|]. intros ->. rewrite AG in AH. injection AH as ->. congruence. }
  (* together *)
  assert (FIN : forall s3 s4, (view s2 s3 /\ forall j, is_open s j = true -> written s2 s3 j (if match cl_conn e with Some x => (x =? j)%nat | None => false end then [line_from s d e m] else [])) ->
    (view s2 s4 /\ forall j, (is_open s j = true -> forall x, link s j x -> i <> j -> written s3 s4 j [relayed d m]) /\ ((forall x, link s j x -> i = j) -> written s3 s4 j [])) ->
    (forall j x, link s j x -> is_open s j = true -> written s s4 j (if (i =? j)%nat then [] else [relayed d m])) /\
    (forall j, cl_conn e = Some j -> is_open s j = true -> written s s4 j [line_from s d e m]) /\
    (forall j, is_open s j = true -> (forall x, ~ link s j x) -> cl_conn e <> Some j -> written s s4 j []) /\ new_modes s s4 g e add fs).
  { intros s3 s4 [V3 W3] [V4 W4]. assert (NL : forall j x, link s j x -> match cl_conn e with Some x => (x =? j)%nat | None => false end = false).
    { intros j x (z & [_ K] & X & Y). rewrite lookup_assoc in K. destruct (cl_conn e) as [j'|] eqn:CE; auto. destruct (Nat.eqb_spec j' j) as [-> |]; auto. destruct (conn_client _ _ _ _ _ _ T K AG Y CE) as [_ E]. congruence. }
    split; [|split; [|split; [|apply NM; exact V4]]].
    - intros j x LJ OJ. pose proof (W3 j OJ) as W. rewrite (NL _ _ LJ) in W. match goal with |- written _ _ _ ?l => change l with (([] ++ []) ++ l) end. eapply written_app; [eapply written_app; [apply K0|exact W]|]. destruct (Nat.eqb_spec i j) as [E|N]; [apply W4; auto|apply (proj1 (W4 j) OJ x LJ N)].
    - intros j CJ OJ. pose proof (W3 j OJ) as W. rewrite CJ, Nat.eqb_refl in W. change [line_from s d e m] with (([] ++ [line_from s d e m]) ++ []). eapply written_app; [eapply written_app; [apply K0|exact W]|]. apply W4. intros x LJ. pose proof (NL _ _ LJ) as Z. rewrite CJ, Nat.eqb_refl in Z. discriminate Z.
    - intros j OJ NLj CJ. pose proof (W3 j OJ) as W. assert (Z : match cl_conn e with Some x => (x =? j)%nat | None => false end = false) by (destruct (cl_conn e) as [j'|]; auto; destruct (Nat.eqb_spec j' j); [congruence|auto]). rewrite Z in W.
      change (@nil bytes) with ((@nil bytes ++ []) ++ []). eapply written_app; [eapply written_app; [apply K0|exact W]|]. apply W4. intros x X. destruct (NLj x X). }
  bd H as srv s3 H1. apply is_type_ok in H1. destruct H1 as (-> & c1 & A1 & ->).
  assert (TC1 : cl_type c1 = cl_type c). { destruct (Nat.eq_dec h g) as [E|NG]; [subst g; rewrite (tu_mine _ _ _ _ TN) in A1; injection A1 as <-; cbn [cl_type set_cl_modes]; congruence|rewrite (tu_others _ _ _ _ TN), AH1 in A1 by exact NG; congruence]. } rewrite TC1 in H.
  bd H as tc s3 H1. apply Client_Conn_ok in H1. destruct H1 as (-> & e1 & A3 & ->). rewrite (tu_mine _ _ _ _ TN) in A3. injection A3 as <-. cbn [cl_conn set_cl_modes] in H.
  bd H as ok s3 H1. change (false && is_some (cl_conn e)) with false in H. bd H as u9 s4 H2. apply ret_ok in H2. destruct H2 as [_ ->]. apply ret_ok in H. destruct H as [_ ->].
  destruct TY as [(TU & -> & ->)|TS].
  - rewrite TU in H1. change (ctype_eqb T_USER T_SERVER) with false in H1. cbv iota in H1. bd H1 as ok1 s5 H2. bd H1 as u8 s6 H3. apply ret_ok in H1. destruct H1 as [_ ->].
    rewrite AH in AG. injection AG as <-. pose proof (P1 _ _ H2 (ex_intro _ i CI)) as W3. eapply FIN; [exact W3|]. exact (P2 _ _ _ (proj1 W3) H3).
  - rewrite TS in H1. change (ctype_eqb T_SERVER T_SERVER) with true in H1. cbv iota in H1. bd H1 as u7 s5 H2. bd H1 as u8 s6 H3. apply ret_ok in H1. destruct H1 as [_ ->].
    assert (W3 : view s2 s5 /\ forall j, is_open s j = true -> written s2 s5 j (if match cl_conn e with Some x => (x =? j)%nat | None => false end then [line_from s d e m] else [])).
    { unfold whenM in H2. destruct (cl_conn e) as [j|] eqn:CE; cbn [is_some] in H2; [bd H2 as b1 s7 H4; apply ret_ok in H2; destruct H2 as [_ ->]; exact (P1 _ _ H4 (ex_intro _ j eq_refl))|]. apply ret_ok in H2. destruct H2 as [_ ->]. split; [reflexivity|]. intros j _. apply written_nil. reflexivity. }
    eapply FIN; [exact W3|]. exact (P2 _ _ _ (proj1 W3) H3).
Qed.
