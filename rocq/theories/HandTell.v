(** What is told about a MODE command (C28, C29, C31). *)
From Coq Require Import List Ascii String ZArith NArith Bool Lia Arith.
From Coq Require Import Relations RelationClasses.
From Verif Require Import Bytes Strl Match Lists ListsProofs Hash ParseReq State Messages Monad Core Write Info Chan Mode Msg Login Oper Server Dispatch Conn.
From Verif Require Import Rel RelWrite RelInfo RelBase RelChan RelSrv RelInit RelKey RelCmd RelComp WF RelGone Frame Tree Inv1 Inv2 Inv3 Inv4 Live Spec Observ Unch HandOper HandPrefix HandLine Frames Attrib HandGain HandUser HandChan HandJoin HandKick Output HandDo HandSend SpecLink HandCast SpecNick HandNick HandSync SpecJoin HandJoined SpecMode.
Import ListNotations.
Local Open Scope m_scope.

(** ** telling everybody: the user itself, the other servers, the local members of the channel *)
Lemma tell : forall s s4 s5 s6 s7 i h c u d ch (cond : bool) f l vals (v1 : bool) v3, tree s -> keyed s -> NoDup (s_clients s) -> seat s s4 -> (forall g, is_on s4 g ch <-> is_on s g ch) ->
  assoc h (s_heap s) = Some c -> cl_conn c = Some i -> assoc u (s_heap s) = Some d -> fits d -> settled d -> cl_id d <> [] ->
  (cl_type c = T_USER /\ u = h /\ d = c \/ cl_type c = T_SERVER) -> (forall t, view s4 t -> prints l t vals) ->
  (if ctype_eqb (cl_type c) T_USER then IRC_WriteStrClientPrefix h u f l s4 = Ok v1 s5 else s5 = s4) ->
  (if cond then exists v2, IRC_WriteStrServersPrefix (Some h) u f l s5 = Ok v2 s6 else s6 = s5) ->
  IRC_WriteStrChannelPrefix h ch u false f l s6 = Ok v3 s7 ->
  let t := fmt (B f) vals in
  view s4 s7 /\ forall j, is_open s j = true ->
  (forall e, link s j e -> written s s7 j (if (i =? j) || negb cond then [] else [relayed d t])) /\
  (forall e, local_on s j ch e -> i <> j -> written s s7 j [line_from s d e t]) /\
  (cl_type c = T_USER -> written s s7 i (if is_open s i then [line_from s d c t] else [])) /\
  ((forall e, ~ link s j e) -> (forall e, ~ local_on s j ch e) -> i <> j -> written s s7 j []).
Proof.
  intros s s4 s5 s6 s7 i h c u d ch cond f l vals v1 v3 T KY NC SQ ON AH CI AU F S NI CS P R1 R2 R3 t.
  assert (IJ : forall e g, assoc g (s_heap s) = Some e -> cl_conn e = Some i -> g = h /\ e = c) by (intros e g K1 K2; destruct (conn_client _ _ _ _ _ _ T K1 AH K2 CI); auto).
  pose proof (seat_tree _ _ SQ T) as T4. assert (NC4 : NoDup (s_clients s4)) by (rewrite (se_clients _ _ SQ); exact NC). assert (NK4 : NoDup (map fst (s_conns s4))) by (rewrite (seat_keys _ _ SQ); apply KY).
  assert (AU4 : assoc u (s_heap s4) = Some d) by (rewrite (se_heap _ _ SQ); exact AU).
  assert (LF : forall t0, view s4 t0 -> forall e m, line_from t0 d e m = line_from s d e m). { intros t0 V0 e m. unfold line_from. rewrite (view_shown _ _ _ V0). unfold shown_mask, shown_host, cloak_name. rewrite (se_heap _ _ SQ), (se_conf _ _ SQ). reflexivity. }
  assert (OE : forall t0, view s4 t0 -> forall j, is_open t0 j = is_open s j) by (intros t0 V0 j; rewrite (view_open _ _ _ V0); apply (seat_open _ _ _ SQ)).
  assert (HE : forall t0, view s4 t0 -> s_heap t0 = s_heap s) by (intros t0 V0; rewrite (v_heap _ _ V0); apply SQ).
  assert (P1 : view s4 s5 /\ forall j, written s s5 j (if ctype_eqb (cl_type c) T_USER && (i =? j) && is_open s i then [line_from s d c t] else [])).
  { destruct (ctype_eqb (cl_type c) T_USER) eqn:TU; cbn [andb].
    - apply ctype_eqb_eq in TU. destruct CS as [(_ & -> & ->)|X]; [|congruence]. eapply prefix_ok in R1; [|exact AU4|exact S|exact F|exact NI|apply P; reflexivity].
      destruct R1 as (x & e & j0 & N1 & A1 & C1 & V1 & EB & OO). assert (N2 : next_hop s h x) by (revert N1; apply view_next; rewrite (se_heap _ _ SQ); reflexivity). assert (x = h) by (exact (local_hop s h c i x T AH CI N2)). subst x. rewrite AU4 in A1. injection A1 as <-. rewrite CI in C1. injection C1 as <-.
      split; auto. rewrite (seat_open _ _ _ SQ) in EB. subst v1. rewrite (LF s4) in OO by reflexivity. rewrite (se_out _ _ SQ) in OO. intro j. destruct (is_open s i).
      + pose proof (written_one _ _ _ _ OO j) as W. rewrite andb_true_r. exact W.
      + rewrite andb_false_r. apply written_nil. exact OO.
    - subst s5. split; [reflexivity|]. intro j. apply written_nil. apply SQ. }
  destruct P1 as [V5 P1].
  assert (P2 : view s4 s6 /\ forall j, (is_open s j = true -> forall g, hit s (Some h) None g j -> written s5 s6 j (if cond then [relayed d t] else [])) /\ ((is_open s j = true -> forall g, ~ hit s (Some h) None g j) -> written s5 s6 j [])).
  { destruct cond.
    - destruct R2 as [v2 R2]. unfold IRC_WriteStrServersPrefix in R2. eapply cast in R2; [|eapply view_tree; eauto|rewrite (v_clients _ _ V5); exact NC4|rewrite (v_heap _ _ V5); exact AU4|apply P; exact V5].
      destruct R2 as (V & _ & G). split; [etransitivity; eauto|]. intro j. destruct (G j) as [G1 G2]. rewrite (OE _ V5) in G1, G2. rewrite (fits_type_id _ NI) in G1. unfold hit in *. rewrite (HE _ V5) in G1, G2. split; auto.
    - subst s6. split; auto. intro j. split; intros; apply written_nil; reflexivity. }
  destruct P2 as [V6 P2].
  eapply chan_local in R3; [|eapply view_tree; eauto|rewrite (view_keys _ _ V6); exact NK4|rewrite (v_heap _ _ V6); exact AU4|exact S|exact F|exact NI|apply P; exact V6].
  destruct R3 as [V7 P3]. split; [etransitivity; eauto|].
  assert (P3' : forall j, (is_open s j = true -> forall e g, is_on s g ch -> g <> h -> assoc g (s_heap s) = Some e -> cl_conn e = Some j -> cl_type e <> T_SERVER -> written s6 s7 j [line_from s d e t]) /\
    ((is_open s j = true -> forall e g, is_on s g ch -> g <> h -> assoc g (s_heap s) = Some e -> cl_conn e = Some j -> cl_type e <> T_SERVER -> False) -> written s6 s7 j [])).
  { intro j. destruct (P3 j) as [G1 G2]. rewrite (OE _ V6), (HE _ V6) in G1, G2. split.
    - intros OP e g I. rewrite <- (LF _ V6). apply (G1 OP e g). apply (view_is_on _ _ _ _ V6), ON. exact I.
    - intro X. apply G2. intros OP e g I. apply (X OP e g). apply (view_is_on _ _ _ _ V6), ON in I. exact I. }
  clear P3. intros j OP.
  assert (NL : forall e, link s j e -> written s6 s7 j []).
  { intros e (g & [_ K] & K2 & K3). rewrite lookup_assoc in K. apply P3'. intros _ e' g' _ _ K4 K5 K6. destruct (conn_client _ _ _ _ _ _ T K K4 K3 K5). congruence. }
  assert (EE : forall x : list bytes, x = ([] ++ x) ++ []) by (intro; rewrite app_nil_r; reflexivity).
  split; [|split; [|split]].
  - intros e LK. pose proof LK as (g & [_ K] & K2 & K3). rewrite lookup_assoc in K. match goal with |- written _ _ _ ?x => rewrite (EE x) end. eapply written_app; [eapply written_app|eapply NL; eauto].
    + specialize (P1 j). destruct (Nat.eqb_spec i j) as [E|NE]; [subst j; destruct (IJ _ _ K K3) as [-> ->]; rewrite K2 in P1; exact P1|rewrite andb_false_r in P1; exact P1].
    + destruct (Nat.eqb_spec i j) as [E|NE]; cbn [orb].
      * subst j. destruct (IJ _ _ K K3) as [-> ->]. apply P2. intros _ g (x & X1 & _ & X3 & X4 & _). destruct (IJ _ _ X1 X3) as [-> _]. auto.
      * replace (if negb cond then [] else [relayed d t]) with (if cond then [relayed d t] else []) by (destruct cond; reflexivity). apply (proj1 (P2 j) OP g).
        exists e. split; auto. split; auto. split; auto. split; auto. intro X. injection X as <-. rewrite AH in K. injection K as <-. congruence.
  - intros e (g & I & K & K2 & K3) NE. rewrite lookup_assoc in K. change [line_from s d e t] with (([] ++ []) ++ [line_from s d e t]). eapply written_app; [eapply written_app|].
    + specialize (P1 j). destruct (Nat.eqb_spec i j); [contradiction|]. rewrite andb_false_r in P1. exact P1.
    + apply P2. intros _ g' (x & X1 & X2 & X3 & _). destruct (conn_client _ _ _ _ _ _ T K X1 K2 X3). congruence.
    + apply (proj1 (P3' j) OP e g); auto. intros ->. rewrite AH in K. injection K as <-. congruence.
  - intro TU. match goal with |- written _ _ _ ?x => assert (E3 : x = (x ++ []) ++ []) by (rewrite !app_nil_r; reflexivity); rewrite E3; clear E3 end. eapply written_app; [|apply P3'; intros _ e g _ NE K1 K2 _; destruct (IJ _ _ K1 K2); contradiction].
    eapply written_app; [specialize (P1 i); rewrite TU, Nat.eqb_refl in P1; exact P1|]. apply P2. intros _ g (x & X1 & X2 & X3 & _). destruct (IJ _ _ X1 X3). congruence.
  - intros X1 X2 NE. change (@nil bytes) with ((@nil bytes ++ []) ++ []). eapply written_app; [eapply written_app|].
    + specialize (P1 j). destruct (Nat.eqb_spec i j); [contradiction|]. rewrite andb_false_r in P1. exact P1.
    + apply P2. intros _ g (e & K1 & K2 & K3 & _). apply (X1 e). exists g. split; auto. split; [eapply tr_listed; eauto|rewrite lookup_assoc; exact K1].
    + apply P3'. intros _ e g I _ K1 K2 K3. apply (X2 e). exists g. rewrite lookup_assoc. auto.
Qed.
Lemma fmt_modes : forall x y z, fmt (B "MODE %s %s%s") [FS x; FS y; FS z] = B "MODE " ++ x ++ " "%char :: y ++ z.
Proof. intros x y z. change (B "MODE " ++ x ++ " "%char :: y ++ z ++ [] = B "MODE " ++ x ++ " "%char :: y ++ z). rewrite app_nil_r. reflexivity. Qed.
Lemma clean_plain : forall sg fs, fs <> [] -> (forall x, In x fs -> plusminus x = false) -> clean_modes (sg :: fs) = sg :: fs.
Proof.
  intros sg fs NE P. unfold clean_modes. replace (plusminus (last_char (sg :: fs))) with false; auto. symmetry. apply P. unfold last_char. destruct (exists_last NE) as (l & a & ->). rewrite app_comm_cons, last_last. apply in_app_iff. right. left. reflexivity.
Qed.
(** the end of a MODE command for a channel *)
Lemma reply_told : forall s s4 i h c u d ch k sg fs args ok b s', tree s -> keyed s -> NoDup (s_clients s) -> seat s s4 -> (forall g, is_on s4 g ch <-> is_on s g ch) ->
  assoc h (s_heap s) = Some c -> cl_conn c = Some i -> assoc u (s_heap s) = Some d -> fits d -> settled d -> cl_id d <> [] ->
  (cl_type c = T_USER /\ u = h /\ d = c \/ cl_type c = T_SERVER) -> assoc ch (s_chans s4) = Some k -> cf_operservermode (s_conf s) = false -> (cl_type c = T_SERVER -> ~ local_name (ch_name k)) ->
  (forall x, In x fs -> plusminus x = false) ->
  chan_modes_reply h u ch (sg :: fs) args ok s4 = Ok b s' ->
  announced s s' i c d ch (ch_name k) (match fs with [] => [] | _ => [B "MODE " ++ ch_name k ++ " "%char :: (sg :: fs) ++ args] end) /\ view s4 s'.
Proof.
  intros s s4 i h c u d ch k sg fs args ok b s' T KY NC SQ ON AH CI AU F S NI CS AK OSM NL PM H. unfold chan_modes_reply in H.
  destruct fs as [|x fs].
  { change (has_modes [sg]) with false in H. cbv iota in H. apply ret_ok in H. destruct H as [_ ->]. split; [|reflexivity]. assert (W : forall j, written s s4 j []) by (intro; apply written_nil; apply SQ).
    split; [|split; [|split; [|split]]]; [intros _ j y _ _; destruct (i =? j); apply W|intros _ j y _ _; apply W|intros j y _ _ _; apply W|intros _ _; apply W|intros j _ _ _ _; apply W]. }
  set (fs' := x :: fs) in *. assert (NE : fs' <> []) by discriminate. assert (HM : has_modes (sg :: fs') = true) by reflexivity. rewrite HM in H. cbv zeta in H. rewrite (clean_plain sg fs' NE PM) in H.
  bd H as srv s5 H1. apply is_type_ok in H1. destruct H1 as (-> & c1 & A1 & ->). rewrite (se_heap _ _ SQ), AH in A1. injection A1 as <-. bd H as loc s5 H1. unfold Channel_IsLocal in H1. bd H1 as k1 s6 H2. apply chan_ok in H2. destruct H2 as [A1 ->]. rewrite AK in A1. injection A1 as <-. apply ret_ok in H1. destruct H1 as [-> ->].
  assert (PR : forall t, view s4 t -> prints [aChan ch; aS (sg :: fs'); aS args] t [FS (ch_name k); FS (sg :: fs'); FS args]) by (intros t V; apply prints_Chan; [rewrite (v_chans _ _ V); exact AK|apply prints_S, prints_S, prints_nil]).
  assert (FIN : exists s5 s6 (v1 : bool) v3, (if ctype_eqb (cl_type c) T_USER then IRC_WriteStrClientPrefix h u "MODE %s %s%s" [aChan ch; aS (sg :: fs'); aS args] s4 = Ok v1 s5 else s5 = s4) /\
    (if negb (Ascii.eqb (hd0 (ch_name k)) "&") then exists v2, IRC_WriteStrServersPrefix (Some h) u "MODE %s %s%s" [aChan ch; aS (sg :: fs'); aS args] s5 = Ok v2 s6 else s6 = s5) /\
    IRC_WriteStrChannelPrefix h ch u false "MODE %s %s%s" [aChan ch; aS (sg :: fs'); aS args] s6 = Ok v3 s').
  { destruct CS as [(TU & -> & ->)|TS].
    - rewrite TU in *. change (ctype_eqb T_USER T_SERVER) with false in H. change (ctype_eqb T_USER T_USER) with true. cbv iota in H |- *. bd H as osm s5 H1. unfold cf in H1. rdgets H1. rewrite (se_conf _ _ SQ), OSM in H. bd H as v1 s5 H1. bd H as v2 s6 H2. bd H as v3 s7 H3. apply ret_ok in H. destruct H as [_ ->]. exists s5, s6, v1, v3. split; auto. split; auto. unfold whenM in H2. destruct (negb _); [exists v2; exact H2|apply ret_ok in H2; tauto].
    - rewrite TS in *. change (ctype_eqb T_SERVER T_SERVER) with true in H. change (ctype_eqb T_SERVER T_USER) with false. cbv iota in H |- *. rewrite (nonlocal_hd _ (NL eq_refl)) in H |- *. cbn [andb negb] in H |- *. bd H as v2 s5 H1. bd H as v3 s6 H2. apply ret_ok in H. destruct H as [_ ->]. exists s4, s5, true, v3. split; auto. split; [exists v2; exact H1|exact H2]. }
  destruct FIN as (s5 & s6 & v1 & v3 & R1 & R2 & R3). destruct (tell _ _ _ _ _ _ _ _ _ _ _ _ _ _ _ _ _ T KY NC SQ ON AH CI AU F S NI CS PR R1 R2 R3) as [V R]. split; [|exact V]. clear R1 R2 R3. rewrite fmt_modes, negb_involutive in R. unfold fs' at 1. cbv iota. cbn [map].
  split; [|split; [|split; [|split]]].
  - intros NLo j y LK OP. destruct (R j OP) as (R1 & _). specialize (R1 y LK). rewrite (nonlocal_hd _ NLo), orb_false_r in R1. exact R1.
  - intros LO j y LK OP. destruct (R j OP) as (R1 & _). specialize (R1 y LK). apply local_hd in LO. rewrite LO, orb_true_r in R1. exact R1.
  - intros j y LO NEj OP. apply (R j OP); auto.
  - intros TU OP. destruct (R i OP) as (_ & _ & R1 & _). rewrite OP in R1. auto.
  - intros j OP X1 X2 NEj. apply (R j OP); auto.
Qed.
(** ** letters without parameter *)
Lemma mode_add_exact : forall m x, x <> NUL -> List.length m < 20 -> mode_add m x = if memb x m then (m, false) else (m ++ [x], true).
Proof.
  intros m x N L. unfold mode_add. replace (strchr0 x m) with (memb x m); [|unfold strchr0; destruct (Ascii.eqb_spec x NUL); [contradiction|reflexivity]]. destruct (memb x m); auto. f_equal. unfold strlcat, CLIENT_MODE_LEN. cbn [List.length].
  replace (List.length m <? 21 - 1) with true by (symmetry; apply Nat.ltb_lt; lia). replace (0 <? 21) with true by reflexivity. cbn [andb]. replace (21 - List.length m <=? 1) with false by (symmetry; apply Nat.leb_gt; lia). reflexivity.
Qed.
Lemma mode_del_exact : forall m x, x <> NUL -> mode_del m x = if memb x m then (del_first x m, true) else (m, false).
Proof. intros m x N. unfold mode_del. replace (strchr0 x m) with (memb x m); [reflexivity|]. unfold strchr0. destruct (Ascii.eqb_spec x NUL); [contradiction|reflexivity]. Qed.
Lemma del_first_not : forall x m, NoDup m -> ~ In x (del_first x m).
Proof.
  induction m as [|y m IH]; intros N H; [exact H|]. inversion N as [|a l N1 N2]; subst. cbn [del_first] in H. destruct (Ascii.eqb_spec y x); [subst; contradiction|]. destruct H as [H|H]; [contradiction|]. exact (IH N2 H).
Qed.

Definition same_cm (st st1 : cmst) : Prop :=
  cm_args st1 = cm_args st /\ cm_pos st1 = cm_pos st /\ cm_marg st1 = cm_marg st /\ cm_aarg st1 = cm_aarg st /\ cm_set st1 = cm_set st /\ cm_skip st1 = cm_skip st /\ cm_modes st1 = cm_modes st /\ cm_astr st1 = cm_astr st /\ cm_count st1 = cm_count st.
Lemma privs_ok : forall h ch (op ma : bool) st s st1 s1, keyed s -> chan_privs h ch op ma st s = Ok st1 s1 -> s1 = s /\ same_cm st st1 /\
  (op = false -> ma = false -> (has_priv s h ch "q" -> cm_owner st1 = true) /\ (has_priv s h ch "a" -> cm_admin st1 = true) /\ (has_priv s h ch "o" -> cm_op st1 = true) /\ (has_priv s h ch "h" -> cm_halfop st1 = true)).
Proof.
  intros h ch op ma st s st1 s1 KY H. unfold chan_privs in H. destruct (negb ma && negb op) eqn:E.
  - bd H as q s2 H1. apply UserHasMode_key in H1; auto. destruct H1 as (-> & _ & Q1). bd H as a s2 H1. apply UserHasMode_key in H1; auto. destruct H1 as (-> & _ & Q2). bd H as o s2 H1. apply UserHasMode_key in H1; auto. destruct H1 as (-> & _ & Q3). bd H as hh s2 H1. apply UserHasMode_key in H1; auto. destruct H1 as (-> & _ & Q4).
    apply ret_ok in H. destruct H as [-> ->]. split; auto. split; [repeat split|]. intros _ _. cbn [set_privs cm_owner cm_admin cm_op cm_halfop]. repeat split; intro X; [apply Q1 in X|apply Q2 in X|apply Q3 in X|apply Q4 in X]; subst; apply orb_true_r.
  - apply ret_ok in H. destruct H as [-> ->]. split; auto. split; [repeat split|]. intros -> ->. discriminate E.
Qed.
(** the sender may change this flag *)
Definition grant (s : state) (h : handle) (ch : chandle) (op ma add : bool) (x : ascii) : Prop :=
  ma = true \/ op = true \/ (In x (B "iVMmnNQt") /\ half_op s h ch) \/ (In x (B "Rsz") /\ chan_op s h ch) \/ (In x (B "OP") /\ add = false /\ chan_op s h ch).
Lemma any_op_ok : forall s h ch (op ma : bool) st, (op = false -> ma = false -> (has_priv s h ch "q" -> cm_owner st = true) /\ (has_priv s h ch "a" -> cm_admin st = true) /\ (has_priv s h ch "o" -> cm_op st = true) /\ (has_priv s h ch "h" -> cm_halfop st = true)) ->
  (ma = true \/ op = true \/ chan_op s h ch) -> any_op op ma st = true.
Proof.
  intros s h ch op ma st K X. unfold any_op. destruct op, ma; auto; rewrite ?orb_true_r; auto. destruct (K eq_refl eq_refl) as (K1 & K2 & K3 & K4). destruct X as [X|[X|[X|[X|X]]]]; try discriminate X; [rewrite (K1 X)|rewrite (K2 X)|rewrite (K3 X)]; rewrite ?orb_true_r; auto.
Qed.
Lemma any_half_ok : forall s h ch (op ma : bool) st, (op = false -> ma = false -> (has_priv s h ch "q" -> cm_owner st = true) /\ (has_priv s h ch "a" -> cm_admin st = true) /\ (has_priv s h ch "o" -> cm_op st = true) /\ (has_priv s h ch "h" -> cm_halfop st = true)) ->
  (ma = true \/ op = true \/ half_op s h ch) -> any_halfop op ma st = true.
Proof.
  intros s h ch op ma st K X. unfold any_halfop. destruct X as [X|[X|(x & I & X)]].
  - rewrite (any_op_ok s h ch op ma st); auto.
  - rewrite (any_op_ok s h ch op ma st); auto.
  - cbn in I. destruct I as [<- |[<- |[<- |[<- |[]]]]]; [|rewrite (any_op_ok s h ch op ma st); auto; unfold chan_op; auto ..].
    destruct (any_op op ma st) eqn:E; auto. cbn [orb]. unfold any_op in E. destruct op, ma; try discriminate E. destruct (K eq_refl eq_refl) as (_ & _ & _ & K4). auto.
Qed.
Lemma letter_flags : forall h u cmd ch (op ma add : bool) st x s v s1, In x flag_letters -> grant s h ch op ma add x -> cm_set st = add ->
  (op = false -> ma = false -> (has_priv s h ch "q" -> cm_owner st = true) /\ (has_priv s h ch "a" -> cm_admin st = true) /\ (has_priv s h ch "o" -> cm_op st = true) /\ (has_priv s h ch "h" -> cm_halfop st = true)) ->
  chan_letter h u cmd ch op ma st x s = Ok v s1 -> s1 = s /\ v = V_Next true st (Some x) [] None.
Proof.
  intros h u cmd ch op ma add st x s v s1 I G CS K H. pose proof (any_op_ok s h ch op ma st K) as K1. pose proof (any_half_ok s h ch op ma st K) as K2. unfold chan_letter in H. unfold grant in G.
  assert (HO : chan_op s h ch -> half_op s h ch) by (intros [X|[X|X]]; eexists; (split; [|exact X]); cbn; auto).
  assert (D : In x (B "iVMmnNQt") \/ In x (B "Rsz") \/ In x (B "OP")). { clear - I. cbn in I |- *. intuition. }
  destruct D as [D|[D|D]].
  - assert (E : memb x (B "RsziVMmnNQt") = true) by (apply memb_In; clear - D; cbn in D |- *; intuition). rewrite E in H. unfold letter_flag in H. assert (E2 : memb x (B "Rsz") = false) by (clear - D; cbn in D; repeat (destruct D as [<- |D]; [reflexivity|]); destruct D). rewrite E2 in H. cbn [andb] in H. rewrite K2 in H; [apply ret_ok in H; destruct H; auto|].
    destruct G as [G|[G|[[_ G]|[[_ G]|(_ & _ & G)]]]]; auto.
  - assert (E : memb x (B "RsziVMmnNQt") = true) by (apply memb_In; clear - D; cbn in D |- *; intuition). rewrite E in H. unfold letter_flag in H. assert (GO : ma = true \/ op = true \/ chan_op s h ch). { destruct G as [G|[G|[[X _]|[[_ G]|(X & _)]]]]; auto; exfalso; clear - D X; cbn in D, X; repeat (destruct D as [<- |D]; [intuition discriminate|]); destruct D. }
    rewrite (K1 GO) in H. cbn [negb] in H. rewrite andb_false_r in H. unfold any_halfop in H. rewrite (K1 GO) in H. apply ret_ok in H. destruct H; auto.
  - assert (E : memb x (B "RsziVMmnNQt") = false /\ Ascii.eqb x "k" = false /\ Ascii.eqb x "l" = false /\ memb x (B "OP") = true) by (clear - D; cbn in D; repeat (destruct D as [<- |D]; [repeat split|]); destruct D).
    destruct E as (E1 & E2 & E3 & E4). rewrite E1, E2, E3, E4 in H. unfold letter_OP in H. rewrite CS in H.
    assert (GO : ma = true \/ op = true \/ add = false /\ chan_op s h ch). { destruct G as [G|[G|[[X _]|[[X _]|(_ & X1 & X2)]]]]; auto; exfalso; clear - D X; cbn in D, X; repeat (destruct D as [<- |D]; [intuition discriminate|]); destruct D. }
    destruct add.
    + assert (EE : op || ma = true) by (destruct GO as [-> |[-> |[X _]]]; [apply orb_true_r|reflexivity|discriminate X]). rewrite EE in H. apply ret_ok in H. destruct H; auto.
    + rewrite K1 in H; [apply ret_ok in H; destruct H; auto|]. destruct GO as [X|[X|[_ X]]]; auto.
Qed.
Lemma flag_applied : forall ch (add : bool) x s r s1 k, x <> NUL -> List.length (ch_modes k) < 20 -> NoDup (ch_modes k) -> assoc ch (s_chans s) = Some k ->
  (if add then Channel_ModeAdd ch x else Channel_ModeDel ch x) s = Ok r s1 ->
  r = negb (Bool.eqb (memb x (ch_modes k)) add) /\ seat s s1 /\ s_members s1 = s_members s /\ map fst (s_chans s1) = map fst (s_chans s) /\
  exists ms, assoc ch (s_chans s1) = Some (set_ch_modes ms k) /\ NoDup ms /\ List.length ms <= S (List.length (ch_modes k)) /\ forall y, In y ms <-> if Ascii.eqb y x then add = true else In y (ch_modes k).
Proof.
  intros ch add x s r s1 k NX LN ND AK H.
  assert (U : forall t ms (u : unit) t1, seat s t -> s_members t = s_members s -> s_chans t = s_chans s -> upd_chan ch (set_ch_modes ms) t = Ok u t1 ->
    seat s t1 /\ s_members t1 = s_members s /\ map fst (s_chans t1) = map fst (s_chans s) /\ assoc ch (s_chans t1) = Some (set_ch_modes ms k)).
  { intros t ms u0 t1 SQ EM EC X. apply upd_chan_ok in X. destruct X as (k1 & A1 & ->). split; [transitivity t; [exact SQ|split; reflexivity]|]. split; [exact EM|]. change (s_chans (set_s_chans (aupd ch (set_ch_modes ms) (s_chans t)) t)) with (aupd ch (set_ch_modes ms) (s_chans t)). rewrite aupd_keys, assoc_aupd, Nat.eqb_refl, EC, AK. auto. }
  destruct add.
  - unfold Channel_ModeAdd in H. bd H as k1 s2 H1. apply chan_ok in H1. destruct H1 as [A1 ->]. rewrite AK in A1. injection A1 as <-. rewrite (mode_add_exact _ _ NX LN) in H.
    destruct (memb x (ch_modes k)) eqn:E; bd H as v s2 H1; destruct (U _ _ _ _ ltac:(reflexivity) eq_refl eq_refl H1) as (U1 & U2 & U3 & U4); apply ret_ok in H; destruct H as [-> ->]; (split; [reflexivity|]); (split; [exact U1|]); (split; [exact U2|]); (split; [exact U3|]); eexists; (split; [exact U4|]).
    + apply memb_In in E. split; auto. split; [auto|]. intro y. destruct (Ascii.eqb_spec y x); [subst; tauto|reflexivity].
    + assert (N : ~ In x (ch_modes k)) by (intro X; apply memb_In in X; congruence). split; [apply NoDup_snoc; auto|]. split; [rewrite app_length; cbn; lia|]. intro y. rewrite in_app_iff. destruct (Ascii.eqb_spec y x) as [-> |NE]; [split; auto; intros _; right; left; reflexivity|]. split; [intros [X|[X|[]]]; auto; congruence|auto].
  - unfold Channel_ModeDel in H. bd H as k1 s2 H1. apply chan_ok in H1. destruct H1 as [A1 ->]. rewrite AK in A1. injection A1 as <-. rewrite (mode_del_exact _ _ NX) in H.
    destruct (memb x (ch_modes k)) eqn:E; bd H as mbs s2 H1; rdgets H1; bd H as v0 s2 H1; unfold odd in H1;
      (assert (QQ : seat s s2 /\ s_members s2 = s_members s /\ s_chans s2 = s_chans s) by (apply modify_ok in H1; subst s2; destruct (_ && _); split; [split; reflexivity|split; reflexivity|reflexivity|auto]));
      destruct QQ as (Q1 & Q2 & Q3); clear H1; bd H as v s3 H1; destruct (U _ _ _ _ Q1 Q2 Q3 H1) as (U1 & U2 & U3 & U4); apply ret_ok in H; destruct H as [-> ->]; (split; [reflexivity|]); (split; [exact U1|]); (split; [exact U2|]); (split; [exact U3|]); eexists; (split; [exact U4|]).
    + split; [apply del_first_NoDup; auto|]. split; [pose proof (del_first_len x (ch_modes k)); lia|]. intro y. destruct (Ascii.eqb_spec y x) as [-> |NE]; [split; [intro X; destruct (del_first_not _ _ ND X)|discriminate]|]. split; [apply del_first_In|intro X; apply Inv3.del_first_keep; auto].
    + assert (N : ~ In x (ch_modes k)) by (intro X; apply memb_In in X; congruence). split; auto. split; auto. intro y. destruct (Ascii.eqb_spec y x) as [-> |NE]; [split; [contradiction|discriminate]|reflexivity].
Qed.
Lemma flag_plain : forall x, In x flag_letters -> plusminus x = false /\ x <> NUL.
Proof. intros x H. cbn in H. repeat (destruct H as [<- |H]; [split; [reflexivity|discriminate]|]). destruct H. Qed.
Lemma grant_same : forall s s1 h ch op ma add x, s_members s1 = s_members s -> grant s h ch op ma add x -> grant s1 h ch op ma add x.
Proof. intros s s1 h ch op ma add x E G. unfold grant, chan_op, half_op, has_priv in *. rewrite E. exact G. Qed.
Lemma cat_short : forall a b, List.length a + List.length b < 512 -> cat a b = a ++ b.
Proof.
  intros a b L. unfold cat, strlcat, COMMAND_LEN. replace (List.length a <? 513 - 1) with true by (symmetry; apply Nat.ltb_lt; lia). change (0 <? 513) with true. cbn [andb].
  replace (513 - List.length a <=? List.length b) with false by (symmetry; apply Nat.leb_gt; lia). reflexivity.
Qed.
Lemma flags_loop : forall h u cmd ch (op ma add : bool) n fs y st s r s' acc k, keyed s -> NoDup (ch_modes k) -> assoc ch (s_chans s) = Some k ->
  NoDup fs -> List.length (ch_modes k) + List.length fs <= 20 -> (forall x, In x fs -> In x flag_letters /\ grant s h ch op ma add x) ->
  cm_pos st = y :: fs -> cm_skip st = false -> cm_aarg st = (-1)%Z -> cm_set st = add -> cm_modes st = acc -> cm_astr st = [] -> List.length acc + List.length fs <= 500 ->
  chan_modes h u cmd ch op ma n st s = Ok r s' ->
  exists k' st', r = (true, st') /\ cm_modes st' = acc ++ changed k add fs /\ cm_astr st' = [] /\ seat s s' /\ s_members s' = s_members s /\ assoc ch (s_chans s') = Some k' /\ ch_name k' = ch_name k /\
    forall x, In x (ch_modes k') <-> if memb x fs then add = true else In x (ch_modes k).
Proof.
  intros h u cmd ch op ma add. induction n as [|n IH]; intros fs y st s r s' acc k KY ND AK NF LN G E1 E2 E3 E4 E5 E6 LA H; cbn [chan_modes] in H; [discriminate H|].
  bd H as nx s1 H1. unfold chan_advance in H1. rewrite E2 in H1. bd H1 as pos s2 H2. rewrite E1 in H2. apply ret_ok in H2. destruct H2 as [-> ->]. cbv zeta in H1.
  destruct fs as [|x fs].
  - rewrite E3 in H1. change (-1 <? 0)%Z with true in H1. cbv iota in H1. apply ret_ok in H1. destruct H1 as [-> ->]. apply ret_ok in H. destruct H as [-> ->].
    exists k, st. cbn [changed filter]. rewrite app_nil_r. split; auto. split; auto. split; auto. split; [reflexivity|]. split; auto. split; auto. split; auto. intro z. reflexivity.
  - apply ret_ok in H1. destruct H1 as [-> ->]. cbv beta iota zeta in H. cbn [cm_pos hd0] in H. destruct (G x (or_introl eq_refl)) as [IX GX]. destruct (flag_plain x IX) as [PX NX]. rewrite PX in H.
    unfold cm_argc in H. cbn [cm_aarg cm_args] in H. rewrite E3 in H. replace (Z.of_nat (List.length (cm_args st)) <=? -1)%Z with false in H by (symmetry; apply Z.leb_gt; lia).
    bd H as st1 s1 H1. apply privs_ok in H1; auto. destruct H1 as (-> & (C1 & C2 & C3 & C4 & C5 & C6 & C7 & C8 & C9) & K). cbn [cm_args cm_pos cm_marg cm_aarg cm_set cm_skip cm_modes cm_astr cm_count] in C1, C2, C3, C4, C5, C6, C7, C8, C9.
    bd H as v s1 H1. destruct (letter_flags _ _ _ _ _ _ _ _ _ _ _ _ IX GX (eq_trans C5 E4) K H1) as [-> ->]. clear H1. cbv beta iota in H. cbn [negb] in H. bd H as o s1 H1. unfold chan_apply in H1. rewrite C5, E4 in H1. bd H1 as rr s2 H2. apply ret_ok in H1. destruct H1 as [-> ->].
    assert (LK : List.length (ch_modes k) < 20) by (cbn [List.length] in LN; lia).
    destruct (flag_applied _ _ _ _ _ _ _ NX LK ND AK H2) as (-> & SQ & EM & EK & ms & AK2 & ND2 & LM & MS). clear H2. cbv beta iota in H. inversion NF as [|a l NF1 NF2]; subst a l.
    set (st2 := if negb (Bool.eqb (memb x (ch_modes k)) add) then add_mode x st1 else st1) in *.
    assert (Q : cm_pos st2 = x :: fs /\ cm_skip st2 = false /\ cm_aarg st2 = (-1)%Z /\ cm_set st2 = add /\ cm_modes st2 = acc ++ (if negb (Bool.eqb (memb x (ch_modes k)) add) then [x] else []) /\ cm_astr st2 = []).
    { cbn [List.length] in LA. unfold st2. destruct (negb _); [cbn [add_mode cm_pos cm_skip cm_aarg cm_set cm_modes cm_astr]; rewrite cat_short by (rewrite C7, E5; cbn [List.length]; lia)|rewrite app_nil_r]; repeat split; congruence. }
    destruct Q as (Q1 & Q2 & Q3 & Q4 & Q5 & Q6).
    assert (KY1 : keyed s2) by (destruct KY as [KY1 KY2 KY3]; split; [rewrite EK; auto|rewrite EM; auto|rewrite (seat_keys _ _ SQ); auto]).
    destruct (IH fs x st2 s2 r s' _ (set_ch_modes ms k) KY1 ND2 AK2 NF2 ltac:(cbn [ch_modes set_ch_modes List.length] in *; lia) ltac:(intros z IZ; destruct (G z (or_intror IZ)) as [Z1 Z2]; split; [exact Z1|eapply grant_same; [exact EM|exact Z2]]) Q1 Q2 Q3 Q4 Q5 Q6 ltac:(rewrite app_length; destruct (negb _); cbn [List.length] in *; lia) H) as (k' & st' & R1 & R2 & R3 & R4 & R5 & R6 & R7 & R8).
    change (ch_modes (set_ch_modes ms k)) with ms in R8. exists k', st'. split; auto. split; [|split; auto; split; [transitivity s2; auto|split; [congruence|split; auto; split; [exact R7|]]]].
    + rewrite R2, <- app_assoc. f_equal. unfold changed. cbn [filter]. assert (EF : forall l, (forall z, In z l -> z <> x) -> filter (fun z => negb (Bool.eqb (memb z ms) add)) l = filter (fun z => negb (Bool.eqb (memb z (ch_modes k)) add)) l).
      { intros l NL. apply filter_ext_in. intros z IZ. do 2 f_equal. apply eq_true_iff_eq. rewrite !memb_In, MS. destruct (Ascii.eqb_spec z x); [destruct (NL z IZ); auto|reflexivity]. }
      change (ch_modes (set_ch_modes ms k)) with ms. rewrite EF; [destruct (negb _); reflexivity|]. intros z IZ ->. contradiction.
    + intro z. rewrite R8. cbn [memb existsb]. change (existsb (Ascii.eqb z) fs) with (memb z fs). destruct (memb z fs) eqn:EZ; [rewrite orb_true_r; reflexivity|]. rewrite orb_false_r, MS. reflexivity.
Qed.
(** ** the command *)
Lemma mode_runs : forall s i h c text name rest u d ch k b s', live s -> undisturbed s -> client_of s i h c -> acts s h c text "MODE" (name :: rest) u d -> nick_fits d ->
  name <> [] -> ~ In NUL name -> legal_chan name -> the_channel s name ch k -> rest <> [] -> (forall r, ch_name k <> "+"%char :: r) -> (cl_type c = T_USER -> inside s u d ch) -> Parse_Request i text s = Ok b s' ->
  exists req s1 ok st s2, view s s1 /\ s_out s1 = s_out s /\ rq_args req = name :: rest /\
    let add := negb (Ascii.eqb (hd0 (hd [] rest)) "-") in
    let op := strchr0 "o" (cl_modes c) && cf_opercanmode (s_conf s) in
    chan_modes h u (rq_command req) ch op (ctype_eqb (cl_type c) T_SERVER) (modes_fuel (name :: rest)) (mkCm (name :: rest) (hd [] rest) 1%Z (if 2 <? List.length (name :: rest) then 2%Z else (-1)%Z) add (negb (plusminus (hd0 (hd [] rest)))) [sign add] [] 0%Z false false false false) s1 = Ok (ok, st) s2 /\
    chan_modes_reply h u ch (cm_modes st) (cm_astr st) ok s2 = Ok b s'.
Proof.
  intros s i h c text name rest u d ch k b s' L U C AC NF NE NN LC TC NR NP IN H. destruct (actor _ _ _ _ _ _ _ _ _ L U C AC NF) as (T & KY & NC & AH & CI & AU & TD & F & NU & NX).
  assert (TY : cl_type c = T_USER \/ cl_type c = T_SERVER) by (destruct AC as [(X & _)|(X & _)]; auto).
  eapply run_as in H; [|exact L|exact C|exact AC|exact NF|reflexivity|destruct TY as [-> | ->]; reflexivity|cbn; lia|intros m E; cbn in E; first [discriminate E|injection E as <-; cbn; lia]].
  destruct H as (req & s1 & V & O1 & SN & EA & H & Q). change (IRC_MODE h req s1 = Ok b s') in H. pose proof (acts_req _ _ _ _ _ _ _ V Q) as Q1.
  assert (AH1 : assoc h (s_heap s1) = Some c) by (rewrite (v_heap _ _ V); exact AH). assert (AU1 : assoc u (s_heap s1) = Some d) by (rewrite (v_heap _ _ V); exact AU).
  assert (AK1 : assoc ch (s_chans s1) = Some k) by (destruct TC as [E _]; unfold exists_chan in E; rewrite lookup_assoc in E; rewrite (v_chans _ _ V); exact E).
  unfold IRC_MODE in H. eapply sender_as in H; [|exact AH1|exact Q1]. cbv beta in H. bd H as cl s2 H1.
  assert (E : s2 = s1 /\ cl = h). { destruct Q1 as [(_ & EP & _)|(_ & p & EP & _ & SE)]; rewrite EP in H1; [apply ret_ok in H1; destruct H1; auto|]. bd H1 as o s3 H2. destruct (SE _ _ H2) as [-> ->]. apply ret_ok in H1. destruct H1 as [-> ->]. split; auto. unfold oheq, heq. destruct (Nat.eqb_spec u This_Server); [contradiction|reflexivity]. }
  destruct E as [-> ->]. clear H1. cbv zeta in H. assert (A0 : arg req 0 = name) by (unfold arg; rewrite EA; reflexivity). rewrite A0 in H.
  assert (VN : forall mx, valid_nick mx name = false). { intro mx. destruct (valid_nick mx name) eqn:E; auto. exfalso. apply valid_nick_legal in E. destruct E as (_ & _ & E & _). destruct LC as [LC _]. destruct name as [|x r]; [congruence|]. specialize (E x r eq_refl). specialize (LC x r eq_refl). clear - E LC. cbn in LC. destruct LC as [<- |[<- |[<- |[]]]]; cbn in E; repeat (destruct E as [E|E]; [discriminate E|]); destruct E. }
  bd H as vn s2 H1. unfold Client_IsValidNick in H1. bd H1 as mx s3 H2. unfold cf in H2. rdgets H2. apply ret_ok in H1. destruct H1 as [-> ->]. rewrite VN in H. bd H as cl s2 H1. apply ret_ok in H1. destruct H1 as [-> ->].
  assert (VC : valid_chan name = true) by (apply valid_chan_legal; auto). rewrite VC in H. bd H as o s2 H1. destruct (search_view _ _ _ _ _ _ _ L V TC H1) as [-> ->]. clear H1.
  unfold Channel_Mode in H. bd H as nm s2 H1. unfold Channel_Name in H1. bd H1 as k1 s3 H2. apply chan_ok in H2. destruct H2 as [A1 ->]. rewrite AK1 in A1. injection A1 as <-. apply ret_ok in H1. destruct H1 as [-> ->].
  assert (HP : Ascii.eqb (hd0 (ch_name k)) "+" = false). { destruct (Ascii.eqb_spec (hd0 (ch_name k)) "+"); auto. destruct (ch_name k) as [|x r] eqn:E; [discriminate e|]. cbn in e. subst x. destruct (NP r eq_refl). }
  rewrite HP in H. destruct rest as [|m rest]; [congruence|]. unfold argc in H. rewrite EA in H. change (List.length (name :: m :: rest) <=? 1) with false in H. cbv iota in H.
  bd H as opb s2 H1. apply HasMode_ok in H1. destruct H1 as (-> & c1 & A1 & ->). rewrite AH1 in A1. injection A1 as <-. bd H as ocm s2 H1. unfold cf in H1. rdgets H1. cbv zeta in H. bd H as ty s2 H1. apply Client_Type_ok in H1. destruct H1 as (-> & c1 & A1 & ->). rewrite AH1 in A1. injection A1 as <-.
  rewrite (v_conf _ _ V) in H. assert (EM : ctype_eqb (cl_type c) T_SERVER || ctype_eqb (cl_type c) T_SERVICE = ctype_eqb (cl_type c) T_SERVER) by (destruct TY as [-> | ->]; reflexivity). rewrite EM in H.
  bd H as mem s2 H1. apply IsMemberOf_on in H1. destruct H1 as [-> MM]. rewrite (view_is_on _ _ _ _ V) in MM.
  assert (D : negb mem && negb (strchr0 "o" (cl_modes c) && cf_opercanmode (s_conf s)) && negb (ctype_eqb (cl_type c) T_SERVER) = false).
  { destruct TY as [TU|TS]; [|rewrite TS; apply andb_false_r]. destruct Q as [(_ & _ & -> & ->)|(X & _)]; [|congruence]. destruct (IN TU) as [[M1 M2]|ON].
    - rewrite M1. assert (E : strchr0 "o" (cl_modes c) = true) by (apply strchr0_iff; [discriminate|exact M2]). rewrite E. cbn [andb negb]. rewrite andb_false_r. reflexivity.
    - apply MM in ON. rewrite ON. reflexivity. }
  rewrite D in H. assert (A1 : arg req 1 = m) by (unfold arg; rewrite EA; reflexivity). rewrite A1 in H. bd H as r s2 H1. destruct r as [ok st]. exists req, s1, ok, st, s2. split; auto. 
Qed.
Theorem mode_flags : forall s i h c text name add fs u d ch k b s', live s -> undisturbed s -> client_of s i h c -> acts s h c text "MODE" [name; sign_of add :: fs] u d -> nick_fits d -> Spec.settled d ->
  cf_operservermode (s_conf s) = false -> name <> [] -> ~ In NUL name -> legal_chan name -> the_channel s name ch k -> (forall r, ch_name k <> "+"%char :: r) -> (cl_type c = T_SERVER -> ~ local_name (ch_name k)) ->
  NoDup (ch_modes k) -> NoDup fs -> incl fs flag_letters -> List.length (ch_modes k) + List.length fs <= 20 ->
  (cl_type c = T_USER -> inside s u d ch /\ forall x, In x fs -> may_set_mode s u d ch add x) -> Parse_Request i text s = Ok b s' ->
  announced s s' i c d ch (ch_name k) (flags_msgs (ch_name k) add (changed k add fs)) /\
  exists k', exists_chan s' ch k' /\ forall x, In x (ch_modes k') <-> if memb x fs then add = true else In x (ch_modes k).
Proof.
  intros s i h c text name add fs u d ch k b s' L U C AC NF S OSM NE NN LC TC NP NLo NDk ND IF LN PM H. destruct (actor _ _ _ _ _ _ _ _ _ L U C AC NF) as (T & KY & NC & AH & CI & AU & TD & F & NU & NX).
  assert (TY : cl_type c = T_USER /\ u = h /\ d = c \/ cl_type c = T_SERVER) by (destruct AC as [(X & _ & X1 & X2)|(X & _)]; auto).
  assert (AK : assoc ch (s_chans s) = Some k) by (destruct TC as [E _]; unfold exists_chan in E; rewrite lookup_assoc in E; exact E).
  destruct (mode_runs _ _ _ _ _ _ _ _ _ _ _ _ _ L U C AC NF NE NN LC TC ltac:(discriminate) NP (fun X => proj1 (PM X)) H) as (req & s1 & ok & st & s2 & V & O1 & EA & H1 & H2). clear H. cbn [hd hd0] in H1.
  assert (ES : negb (Ascii.eqb (sign_of add) "-") = add /\ plusminus (sign_of add) = true /\ sign add = sign_of add) by (destruct add; repeat split). destruct ES as (ES1 & ES2 & ES3). cbv zeta in H1. rewrite ES1, ES2, ES3 in H1. cbn [negb] in H1. change (if 2 <? List.length [name; sign_of add :: fs] then 2%Z else (-1)%Z) with (-1)%Z in H1.
  assert (LF : List.length fs <= 20) by lia.
  eapply flags_loop with (add := add) (acc := [sign_of add]) (fs := fs) in H1; [|eapply view_keyed; eauto|exact NDk|rewrite (v_chans _ _ V); exact AK|exact ND|exact LN| |reflexivity|reflexivity|reflexivity|reflexivity|reflexivity|reflexivity|cbn [List.length]; lia].
  - destruct H1 as (k' & st' & E & R2 & R3 & SQ & EM & AK' & EN & MS). injection E as -> ->. rewrite R2, R3 in H2. cbn [app] in H2.
    assert (SQ0 : seat s s2) by (transitivity s1; [apply view_seat; auto|exact SQ]).
    assert (ON : forall g, is_on s2 g ch <-> is_on s g ch) by (intro g; unfold is_on; rewrite EM, (v_members _ _ V); reflexivity).
    assert (PL : forall x, In x (changed k add fs) -> plusminus x = false) by (intros x IX; apply filter_In in IX; destruct IX as [IX _]; apply flag_plain, IF, IX).
    rewrite <- EN. destruct (reply_told _ _ _ _ _ _ _ _ _ _ _ _ _ _ _ T KY NC SQ0 ON AH CI AU F S (proj1 NF) TY AK' OSM ltac:(rewrite EN; exact NLo) PL H2) as [R V2]. split.
    + unfold flags_msgs. rewrite app_nil_r in R. exact R.
    + exists k'. split; [|exact MS]. unfold exists_chan. rewrite lookup_assoc, (v_chans _ _ V2). exact AK'.
  - intros x IX. split; [apply IF, IX|]. apply (grant_same s); [apply V|]. destruct TY as [(TU & -> & ->)|TS]; [|left; rewrite TS; reflexivity]. right. destruct (PM TU) as [_ P]. destruct (P x IX) as [[_ [M1 M2]]|[[X Y]|[X|X]]].
    + left. rewrite M1, andb_true_r. apply strchr0_iff; [discriminate|exact M2].
    + right. left. split; [|exact Y]. pose proof (IF x IX) as Z. clear - X Z. cbn in X, Z |- *. intuition; subst; discriminate.
    + auto.
    + auto.
Qed.
(** ** privileges of members *)
Lemma upd_mb_pairs : forall ch g ms l, map mpair (upd_mb ch g (set_mb_modes ms) l) = map mpair l.
Proof. induction l as [|m l IH]; auto. cbn [upd_mb map]. destruct (is_mb ch g m); cbn [map]; [reflexivity|]. f_equal. exact IH. Qed.
Lemma upd_mb_on : forall ch g ms s y ch', is_on (set_s_members (upd_mb ch g (set_mb_modes ms) (s_members s)) s) y ch' <-> is_on s y ch'.
Proof.
  intros ch g ms s y ch'. unfold is_on. assert (Q : forall l, (exists m, In m l /\ mb_client m = y /\ mb_chan m = ch') <-> In (y, ch') (map mpair l) \/ In (ch', y) (map mpair l) /\ False).
  { intro l. rewrite in_map_iff. split; [intros (m & I & <- & <-); left; exists m; auto|intros [(m & E & I)|[_ []]]; exists m; unfold mpair in E; injection E as E1 E2; auto]. }
  change (s_members (set_s_members (upd_mb ch g (set_mb_modes ms) (s_members s)) s)) with (upd_mb ch g (set_mb_modes ms) (s_members s)). rewrite !Q, upd_mb_pairs. reflexivity.
Qed.
Lemma upd_mb_new : forall ch g ms l m, find (is_mb ch g) l = Some m -> In (set_mb_modes ms m) (upd_mb ch g (set_mb_modes ms) l).
Proof. induction l as [|x l IH]; intros m H; [discriminate H|]. cbn [find upd_mb] in *. destruct (is_mb ch g x); [injection H as <-; left; auto|right; auto]. Qed.
Lemma priv_applied : forall ch g (add : bool) x s r s1 ms, keyed s -> x <> NUL -> modes_on s g ch ms -> List.length ms < 20 -> NoDup ms ->
  (if add then Channel_UserModeAdd ch g x else Channel_UserModeDel ch g x) s = Ok r s1 ->
  r = negb (Bool.eqb (memb x ms) add) /\ seat s s1 /\ (forall y, is_on s1 y ch <-> is_on s y ch) /\ s_chans s1 = s_chans s /\ exists ms', modes_on s1 g ch ms' /\ forall y, In y ms' <-> if Ascii.eqb y x then add = true else In y ms.
Proof.
  intros ch g add x s r s1 ms KY NX (m & IM & M1 & M2 & M3) LN ND H.
  assert (FM : find (is_mb ch g) (s_members s) = Some m).
  { destruct (find (is_mb ch g) (s_members s)) as [m'|] eqn:E.
    - apply find_some in E. destruct E as [E1 E2]. unfold is_mb, heq in E2. apply andb_true_iff in E2. destruct E2 as [E2 E3]. apply Nat.eqb_eq in E2, E3. f_equal. apply (mb_one s); auto. unfold mpair. congruence.
    - pose proof (find_none _ _ E m IM) as Z. unfold is_mb, heq in Z. rewrite M1, M2, !Nat.eqb_refl in Z. discriminate Z. }
  assert (FIN : forall ms', (forall y, In y ms' <-> if Ascii.eqb y x then add = true else In y ms) -> s1 = set_s_members (upd_mb ch g (set_mb_modes ms') (s_members s)) s ->
    seat s s1 /\ (forall y, is_on s1 y ch <-> is_on s y ch) /\ s_chans s1 = s_chans s /\ exists ms', modes_on s1 g ch ms' /\ forall y, In y ms' <-> if Ascii.eqb y x then add = true else In y ms).
  { intros ms' Q ->. split; [split; reflexivity|]. split; [intro; apply upd_mb_on|]. split; auto. exists ms'. split; auto. exists (set_mb_modes ms' m). split; [|auto]. cbn [s_members set_s_members]. apply upd_mb_new. exact FM. }
  destruct add.
  - unfold Channel_UserModeAdd in H. bd H as o s2 H1. apply Get_Cl2Chan_ok in H1. destruct H1 as [-> ->]. rewrite FM in H. bd H as mb s2 H1. apply nonnull_ok in H1. destruct H1 as [E ->]. injection E as <-. rewrite M3, (mode_add_exact _ _ NX LN) in H.
    destruct (memb x ms) eqn:E; bd H as v s2 H1; apply modify_ok in H1; subst s2; apply ret_ok in H; destruct H as [-> ->]; (split; [reflexivity|]); (eapply FIN; [|reflexivity]); intro y.
    + apply memb_In in E. destruct (Ascii.eqb_spec y x); [subst; tauto|reflexivity].
    + rewrite in_app_iff. destruct (Ascii.eqb_spec y x) as [-> |NE]; [split; auto; intros _; right; left; reflexivity|]. split; [intros [X|[X|[]]]; auto; congruence|auto].
  - unfold Channel_UserModeDel in H. bd H as o s2 H1. apply Get_Cl2Chan_ok in H1. destruct H1 as [-> ->]. rewrite FM in H. bd H as mb s2 H1. apply nonnull_ok in H1. destruct H1 as [E ->]. injection E as <-. rewrite M3, (mode_del_exact _ _ NX) in H.
    destruct (memb x ms) eqn:E; bd H as v s2 H1; apply modify_ok in H1; subst s2; apply ret_ok in H; destruct H as [-> ->]; (split; [reflexivity|]); (eapply FIN; [|reflexivity]); intro y.
    + destruct (Ascii.eqb_spec y x) as [-> |NE]; [split; [intro X; destruct (del_first_not _ _ ND X)|discriminate]|]. split; [apply del_first_In|intro X; apply Inv3.del_first_keep; auto].
    + assert (N : ~ In x ms) by (intro X; apply memb_In in X; congruence). destruct (Ascii.eqb_spec y x) as [-> |NE]; [split; [contradiction|discriminate]|reflexivity].
Qed.
Lemma letter_priv : forall h u cmd ch (op ma : bool) st x t g s v s1, In x (B "qaohv") ->
  (ma = true \/ op = true \/ (x = "v"%char /\ half_op s h ch) \/ (In x (B "oh") /\ chan_op s h ch) \/ (x = "a"%char /\ chan_admin s h ch) \/ (x = "q"%char /\ chan_owner s h ch)) ->
  (op = false -> ma = false -> (has_priv s h ch "q" -> cm_owner st = true) /\ (has_priv s h ch "a" -> cm_admin st = true) /\ (has_priv s h ch "o" -> cm_op st = true) /\ (has_priv s h ch "h" -> cm_halfop st = true)) ->
  (cm_marg st < cm_aarg st)%Z -> cm_arg st (cm_aarg st) = t -> (forall o z, Client_Search t s = Ok o z -> z = s /\ o = Some g) ->
  chan_letter h u cmd ch op ma st x s = Ok v s1 -> s1 = s /\ v = V_Next true (consume st) (Some x) [] (Some g).
Proof.
  intros h u cmd ch op ma st x t g s v s1 I G K LA EA SE H. pose proof (any_op_ok s h ch op ma st K) as K1. pose proof (any_half_ok s h ch op ma st K) as K2. unfold chan_letter in H.
  assert (E : memb x (B "RsziVMmnNQt") = false /\ Ascii.eqb x "k" = false /\ Ascii.eqb x "l" = false /\ memb x (B "OP") = false /\ memb x (B "qaohv") = true) by (clear - I; cbn in I; repeat (destruct I as [<- |I]; [repeat split|]); destruct I).
  destruct E as (E1 & E2 & E3 & E4 & E5). rewrite E1, E2, E3, E4, E5 in H. clear E1 E2 E3 E4 E5. unfold letter_user in H.
  assert (GH : ma = true \/ op = true \/ half_op s h ch). { destruct G as [G|[G|[[_ G]|[[_ G]|[[_ G]|[_ G]]]]]]; auto; right; right; [destruct G as [G|[G|G]]|destruct G as [G|G]|unfold chan_owner in G]; eexists; (split; [|exact G]); cbn; auto. }
  assert (GO : x <> "v"%char -> ma = true \/ op = true \/ chan_op s h ch). { intro NV. destruct G as [G|[G|[[G _]|[[_ G]|[[_ G]|[_ G]]]]]]; try solve [auto]; right; right; first [destruct (NV G)|left; exact G|destruct G as [G|G]; [left; exact G|right; left; exact G]]. }
  assert (Q1 : Ascii.eqb x "q" && negb (op || ma || cm_owner st) = false).
  { destruct (Ascii.eqb_spec x "q") as [-> |]; [|reflexivity]. cbn [andb]. apply negb_false_iff. destruct op, ma; auto. destruct (K eq_refl eq_refl) as (K3 & _). destruct G as [G|[G|[[G _]|[[G _]|[[G _]|[_ G]]]]]]; try discriminate G; [cbn in G; intuition discriminate|cbn [orb]; apply K3; exact G]. }
  rewrite Q1 in H. clear Q1.
  assert (Q2 : memb x (B "qa") && negb (op || ma || cm_owner st || cm_admin st) = false).
  { destruct (memb x (B "qa")) eqn:E; [|reflexivity]. apply memb_In in E. cbn [andb]. apply negb_false_iff. destruct op, ma; auto. destruct (K eq_refl eq_refl) as (K3 & K4 & _). cbn [orb]. destruct G as [G|[G|[[G _]|[[G _]|[[_ G]|[_ G]]]]]]; try discriminate G; [subst x; cbn in E; intuition discriminate|exfalso; clear - E G; cbn in E, G; intuition congruence|destruct G as [G|G]; [rewrite (K3 G); reflexivity|rewrite (K4 G); apply orb_true_r]|rewrite (K3 G); reflexivity]. }
  rewrite Q2 in H. clear Q2.
  assert (Q3 : memb x (B "qaoh") && negb (any_op op ma st) = false).
  { destruct (memb x (B "qaoh")) eqn:E; [|reflexivity]. cbn [andb]. apply negb_false_iff, K1, GO. intros ->. discriminate E. }
  rewrite Q3 in H. clear Q3. apply Z.ltb_lt in LA. rewrite LA, EA in H. rewrite K2 in H; auto. bd H as o s2 H1. destruct (SE _ _ H1) as [-> ->]. apply ret_ok in H. destruct H as [-> ->]. auto.
Qed.
Theorem mode_priv : forall s i h c text name add x nick u d g e ch k ms b s', live s -> undisturbed s -> client_of s i h c -> acts s h c text "MODE" [name; [sign_of add; x]; nick] u d -> nick_fits d -> Spec.settled d ->
  cf_operservermode (s_conf s) = false -> name <> [] -> ~ In NUL name -> legal_chan name -> the_channel s name ch k -> (forall r, ch_name k <> "+"%char :: r) -> (cl_type c = T_SERVER -> ~ local_name (ch_name k)) ->
  the_client s nick g e -> nick_fits e -> modes_on s g ch ms -> List.length ms < 20 -> In x (B "qaohv") ->
  (cl_type c = T_USER -> inside s u d ch /\ may_set_priv s u d ch x) -> Parse_Request i text s = Ok b s' ->
  announced s s' i c d ch (ch_name k) (if Bool.eqb (memb x ms) add then [] else priv_msgs (ch_name k) add x (cl_id e)) /\
  exists ms', modes_on s' g ch ms' /\ forall y, In y ms' <-> if Ascii.eqb y x then add = true else In y ms.
Proof.
  intros s i h c text name add x nick u d g e ch k ms b s' L U C AC NF S OSM NE NN LC TC NP NLo TG NFe MO LN IX PM H. destruct (actor _ _ _ _ _ _ _ _ _ L U C AC NF) as (T & KY & NC & AH & CI & AU & TD & F & NU & NX).
  assert (TY : cl_type c = T_USER /\ u = h /\ d = c \/ cl_type c = T_SERVER) by (destruct AC as [(X & _ & X1 & X2)|(X & _)]; auto).
  assert (AK : assoc ch (s_chans s) = Some k) by (destruct TC as [E _]; unfold exists_chan in E; rewrite lookup_assoc in E; exact E).
  assert (ND : NoDup ms) by (destruct MO as (m & IM & _ & _ & <-); destruct (live_ichan _ L) as [_ _ G]; apply (G m IM)).
  destruct (mode_runs _ _ _ _ _ _ _ _ _ _ _ _ _ L U C AC NF NE NN LC TC ltac:(discriminate) NP (fun X => proj1 (PM X)) H) as (req & s1 & ok & st & s2 & V & O1 & EA & H1 & H2). clear H. cbn [hd hd0] in H1.
  assert (ES : negb (Ascii.eqb (sign_of add) "-") = add /\ plusminus (sign_of add) = true /\ sign add = sign_of add) by (destruct add; repeat split). destruct ES as (ES1 & ES2 & ES3). cbv zeta in H1. rewrite ES1, ES2, ES3 in H1. cbn [negb] in H1. change (if 2 <? List.length [name; [sign_of add; x]; nick] then 2%Z else (-1)%Z) with 2%Z in H1.
  pose proof (view_keyed _ _ V KY) as KY1. assert (AK1 : assoc ch (s_chans s1) = Some k) by (rewrite (v_chans _ _ V); exact AK).
  assert (AE : assoc g (s_heap s) = Some e) by (destruct TG as [[_ K] _]; rewrite lookup_assoc in K; exact K).
  assert (PX : plusminus x = false /\ x <> NUL) by (clear - IX; cbn in IX; repeat (destruct IX as [<- |IX]; [split; [reflexivity|discriminate]|]); destruct IX). destruct PX as [PX NX0].
  match type of H1 with context [modes_fuel ?l] => assert (NF0 : exists n, modes_fuel l = Datatypes.S (Datatypes.S n)) by (unfold modes_fuel; eexists; cbn [Nat.mul List.length Nat.add]; reflexivity); destruct NF0 as [n EN0]; rewrite EN0 in H1; clear EN0 end.
  cbn [chan_modes] in H1. bd H1 as nx s3 H3. unfold chan_advance in H3. cbn [cm_skip cm_pos cm_marg cm_aarg cm_args cm_set cm_modes cm_astr cm_count cm_halfop cm_op cm_admin cm_owner] in H3. bd H3 as pos s4 H4. apply ret_ok in H4. destruct H4 as [-> ->]. cbv zeta in H3. apply ret_ok in H3. destruct H3 as [-> ->].
  cbv beta iota zeta in H1. cbn [cm_pos hd0] in H1. rewrite PX in H1. unfold cm_argc in H1. cbn [cm_args cm_aarg List.length] in H1. change (Z.of_nat 3 <=? 2)%Z with false in H1. cbv iota in H1.
  bd H1 as st1 s3 H3. apply privs_ok in H3; auto. destruct H3 as (-> & (C1 & C2 & C3 & C4 & C5 & C6 & C7 & C8 & C9) & K). cbn [cm_args cm_pos cm_marg cm_aarg cm_set cm_skip cm_modes cm_astr cm_count] in C1, C2, C3, C4, C5, C6, C7, C8, C9.
  bd H1 as v s3 H3. apply letter_priv with (t := nick) (g := g) in H3; [|exact IX| |exact K|rewrite C3, C4; lia|unfold cm_arg; rewrite C1, C4; reflexivity|].
  2: { destruct TY as [(TU & -> & ->)|TS]; [|left; rewrite TS; reflexivity]. right. destruct (PM TU) as [_ P]. unfold may_set_priv, chan_owner, chan_admin, chan_op, half_op, has_priv in *. rewrite (v_members _ _ V). destruct P as [[_ [M1 M2]]|P]; [left; rewrite M1, andb_true_r; apply strchr0_iff; [discriminate|exact M2]|right; exact P]. }
  2: { intros o z HS. eapply search_the; [|eapply view_the; [exact V|exact TG]|apply NFe|exact HS]. eapply icli_view; [exact V|apply live_icli; exact L]. }
  destruct H3 as [-> ->]. cbv beta iota in H1. cbn [negb] in H1. bd H1 as o s3 H3. unfold chan_apply in H3. bd H3 as mem s4 H4. apply IsMemberOf_on in H4. destruct H4 as [-> MM].
  assert (ON1 : is_on s1 g ch) by (apply (view_is_on _ _ _ _ V); destruct MO as (m & X1 & X2 & X3 & _); exists m; auto). apply MM in ON1. subst mem. cbn [negb] in H3. change (cm_set (consume st1)) with (cm_set st1) in H3. rewrite C5 in H3.
  bd H3 as r s4 H4. assert (MO1 : modes_on s1 g ch ms) by (unfold modes_on; rewrite (v_members _ _ V); exact MO). destruct (priv_applied _ _ _ _ _ _ _ _ KY1 NX0 MO1 LN ND H4) as (-> & SQ & ON & EC & ms' & MO2 & MS). clear H4.
  assert (SQ0 : seat s s4) by (transitivity s1; [apply view_seat; auto|exact SQ]).
  assert (Q : exists st3, o = Some st3 /\ s3 = s4 /\ cm_pos st3 = [x] /\ cm_skip st3 = false /\ cm_aarg st3 = 3%Z /\ cm_marg st3 = 1%Z /\ List.length (cm_args st3) = 3 /\
    cm_modes st3 = sign_of add :: (if Bool.eqb (memb x ms) add then [] else [x]) /\ cm_astr st3 = (if Bool.eqb (memb x ms) add then [] else " "%char :: cl_id e)).
  { assert (LA : List.length (cm_args (consume st1)) = 3). { cbn [consume cm_args]. rewrite C1, C4. reflexivity. }
    destruct (Bool.eqb (memb x ms) add); cbn [negb] in H3.
    - apply ret_ok in H3. destruct H3 as [-> ->]. exists (consume st1). split; auto. split; auto. cbn [consume cm_pos cm_skip cm_aarg cm_marg cm_modes cm_astr]. rewrite C4. repeat split; auto.
    - bd H3 as id s5 H5. apply Client_ID_ok in H5. destruct H5 as (-> & e1 & A1 & ->). rewrite (se_heap _ _ SQ0), AE in A1. injection A1 as <-. rewrite (fits_type_id _ (proj1 NFe)) in H3. apply ret_ok in H3. destruct H3 as [-> ->]. exists (add_mode x (add_arg (cl_id e) (consume st1))). split; auto. split; auto.
      cbn [add_mode add_arg consume cm_args cm_pos cm_skip cm_aarg cm_marg cm_modes cm_astr] in LA |- *. rewrite C7, C8. pose proof (proj2 NFe) as LE. rewrite !cat_short by (cbn [List.length app]; rewrite ?cat_short by (cbn; lia); cbn; lia). rewrite C4 in LA |- *. split; [exact C2|]. split; [exact C6|]. split; [reflexivity|]. split; [exact C3|]. split; [exact LA|]. split; reflexivity. }
  destruct Q as (st3 & -> & -> & Q1 & Q2 & Q3 & Q4 & Q5 & Q6 & Q7). clear H3.
  cbn [chan_modes] in H1. bd H1 as nx s5 H3. unfold chan_advance in H3. rewrite Q2, Q1, Q3, Q4 in H3. unfold cm_argc in H3. rewrite Q5 in H3. bd H3 as pos s6 H4. apply ret_ok in H4. destruct H4 as [-> ->]. cbv zeta in H3. cbn in H3. apply ret_ok in H3. destruct H3 as [-> ->]. apply ret_ok in H1. destruct H1 as [E ->]. injection E as -> ->.
  rewrite Q6, Q7 in H2.
  assert (ON0 : forall y, is_on s4 y ch <-> is_on s y ch) by (intro y; rewrite ON; apply (view_is_on _ _ _ _ V)). assert (AK4 : assoc ch (s_chans s4) = Some k) by (rewrite EC; exact AK1).
  assert (PL : forall z, In z (if Bool.eqb (memb x ms) add then [] else [x]) -> plusminus z = false) by (intros z IZ; destruct (Bool.eqb _ _); [destruct IZ|destruct IZ as [<- |[]]; exact PX]).
  destruct (reply_told _ _ _ _ _ _ _ _ _ _ _ _ _ _ _ T KY NC SQ0 ON0 AH CI AU F S (proj1 NF) TY AK4 OSM NLo PL H2) as [R V2]. split.
  - destruct (Bool.eqb (memb x ms) add); exact R.
  - exists ms'. split; [|exact MS]. unfold modes_on. rewrite (v_members _ _ V2). exact MO2.
Qed.
