(** What is told about a JOIN (C28, C29, C31). *)
From Coq Require Import List Ascii String ZArith NArith Bool Lia Arith.
From Coq Require Import Relations RelationClasses.
From Verif Require Import Bytes Strl Match Lists ListsProofs Hash ParseReq State Messages Monad Core Write Info Chan Mode Msg Login Oper Server Dispatch Conn.
From Verif Require Import Rel RelWrite RelInfo RelBase RelChan RelSrv RelInit RelKey RelCmd RelComp WF RelGone Frame Tree Inv1 Inv2 Inv4 Live Spec Observ Unch HandOper HandPrefix HandLine Frames Attrib HandGain HandUser HandChan HandJoin HandKick Output HandDo HandSend SpecLink HandCast SpecNick HandNick HandSync SpecJoin.
Import ListNotations.
Local Open Scope m_scope.

(** everything but channels and members; nothing is written *)
Record seat (s s' : state) : Prop := mk_seat {
  se_conf : s_conf s' = s_conf s; se_now : s_now s' = s_now s; se_heap : s_heap s' = s_heap s; se_clients : s_clients s' = s_clients s;
  se_ends : ends (s_conns s') = ends (s_conns s); se_out : s_out s' = s_out s }.
#[export] Instance seat_po : PreOrder seat.
Proof. split; [intro; split; reflexivity|]. intros a b c [] []. split; congruence. Qed.
Lemma view_seat : forall s s', view s s' -> s_out s' = s_out s -> seat s s'.
Proof. intros s s' [] O. split; auto. Qed.
(** a state with the channels and members of the old one *)
Lemma seat_tree : forall s s', seat s s' -> tree s -> tree s'.
Proof.
  intros s s' [] T. set (s0 := set_s_members (s_members s) (set_s_chans (s_chans s) s')). assert (V : view s s0) by (split; auto).
  destruct (view_tree _ _ V T) as [T1 T2 T3 T4 T5 T6 T7]. split; auto.
Qed.
Lemma seat_open : forall s s' j, seat s s' -> is_open s' j = is_open s j.
Proof.
  intros s s' j []. set (s0 := set_s_members (s_members s) (set_s_chans (s_chans s) s')). assert (V : view s s0) by (split; auto). exact (view_open _ _ j V).
Qed.
Lemma ends_keys : forall l : list (connid * conn), map fst l = map fst (ends l).
Proof. intro l. unfold ends. rewrite map_map. apply map_ext. reflexivity. Qed.
Lemma seat_keys : forall s s', seat s s' -> map fst (s_conns s') = map fst (s_conns s).
Proof. intros s s' Q. rewrite !ends_keys, (se_ends _ _ Q). reflexivity. Qed.

(** ** broadcasts with a callback *)
Lemma cb_list : forall (cb : handle -> M unit) (L : connid -> list bytes) (I : state -> Prop) except flag,
  (forall h c j t v t', tree t -> I t -> assoc h (s_heap t) = Some c -> cl_type c = T_SERVER -> cl_conn c = Some j -> cb h t = Ok v t' ->
     view t t' /\ I t' /\ (forall k, k <> j -> written t t' k []) /\ written t t' j (if is_open t j then L j else [])) ->
  forall l s u s', tree s -> I s -> NoDup l ->
  mfor l (fun h => c <- cli h ;;
    if ctype_eqb (cl_type c) T_SERVER && (match cl_conn c with Some _ => true | None => false end) && negb (heq h This_Server) && negb (oheq except h)
    then if match flag with None => true | Some f => strchr0 f (cl_flags c) end then cb h else ret tt else ret tt) s = Ok u s' ->
  view s s' /\ I s' /\
  forall j, (is_open s j = true -> forall g, In g l -> hit s except flag g j -> written s s' j (L j)) /\
    ((is_open s j = true -> forall g, In g l -> ~ hit s except flag g j) -> written s s' j []).
Proof.
  intros cb L I except flag CB. induction l as [|h l IH]; intros s u s' T II N H; cbn [mfor] in H.
  - apply ret_ok in H. destruct H as [_ ->]. split; [reflexivity|]. split; auto. intro j. split; [intros _ g []|intros _; apply written_nil; reflexivity].
  - bd H as u1 s1 H1. inversion N as [|a q N1 N2]; subst a q.
    assert (G : view s s1 /\ I s1 /\ forall j, (is_open s j = true -> hit s except flag h j -> written s s1 j (L j)) /\ ((is_open s j = true -> ~ hit s except flag h j) -> written s s1 j [])).
    { bd H1 as c s2 H2. apply cli_ok in H2. destruct H2 as [AC ->].
      assert (Q : (exists j, hit s except flag h j /\ cl_type c = T_SERVER /\ cl_conn c = Some j /\ cb h s = Ok u1 s1) \/ (s1 = s /\ forall j, ~ hit s except flag h j)).
      { destruct (_ && _) eqn:E in H1.
        - apply andb_true_iff in E. destruct E as [E E4]. apply andb_true_iff in E. destruct E as [E E3]. apply andb_true_iff in E. destruct E as [E1 E2]. apply ctype_eqb_eq in E1. destruct (cl_conn c) as [j|] eqn:CJ; [|discriminate E2].
          assert (NE : except <> Some h) by (intros ->; cbn [oheq] in E4; rewrite Nat.eqb_refl in E4; discriminate E4).
          destruct (match flag with None => true | Some f => strchr0 f (cl_flags c) end) eqn:EF in H1.
          + left. exists j. split; auto. exists c. split; auto. split; auto. split; auto. split; auto. destruct flag; auto.
          + right. apply ret_ok in H1. destruct H1 as [_ ->]. split; auto. intros j' (d & A2 & _ & _ & _ & F). rewrite AC in A2. injection A2 as <-. destruct flag; congruence.
        - right. apply ret_ok in H1. destruct H1 as [_ ->]. split; auto. intros j (d & A2 & TS & CJ & NE & _). rewrite AC in A2. injection A2 as <-. rewrite TS, CJ in E. change (ctype_eqb T_SERVER T_SERVER) with true in E. cbn [andb] in E.
          assert (NT : heq h This_Server = false). { apply Nat.eqb_neq. intros ->. destruct (tr_me _ T) as (me & M1 & _ & M2 & _). rewrite AC in M1. injection M1 as <-. congruence. } rewrite NT in E. cbn [negb andb] in E. apply negb_false_iff in E. destruct except as [x|]; [|discriminate E]. apply Nat.eqb_eq in E. subst x. auto. }
      destruct Q as [(j & HT & TS & CJ & H2)|[-> NH]].
      2: { split; [reflexivity|]. split; auto. intro j. split; [intros _ X; destruct (NH _ X)|intros _; apply written_nil; reflexivity]. }
      destruct (CB _ _ _ _ _ _ T II AC TS CJ H2) as (V & I1 & W1 & W2). split; auto. split; auto. intro k.
      assert (HJ : forall k, hit s except flag h k -> k = j). { intros k0 (d & A4 & _ & CK & _). rewrite AC in A4. injection A4 as <-. congruence. }
      split.
      - intros OP HK. apply HJ in HK. subst k. rewrite OP in W2. exact W2.
      - intro NH. destruct (Nat.eq_dec k j) as [-> |NE]; [|apply W1; auto]. destruct (is_open s j) eqn:OP; [destruct (NH eq_refl HT)|exact W2]. }
    destruct G as (V & I1 & G). destruct (IH s1 u s') as (V2 & I2 & G2); auto; [eapply view_tree; eauto|]. split; [etransitivity; eauto|]. split; auto.
    intro j. specialize (G j). specialize (G2 j). rewrite (view_open _ _ _ V) in G2. destruct G as [G3 G4]. destruct G2 as [G5 G6]. split.
    + intros OP g [<- |J] HT.
      * rewrite <- (app_nil_r (L j)). eapply written_app; [apply G3; auto|]. apply G6. intros _ g J X. apply (view_hit _ _ _ _ _ _ V) in X. destruct HT as (d & K1 & _ & K2 & _). destruct X as (d' & K3 & _ & K4 & _). destruct (conn_client _ _ _ _ _ _ T K1 K3 K2 K4) as [-> _]. contradiction.
      * change (L j) with ([] ++ L j). eapply written_app; [apply G4|apply (G5 OP g J); apply (view_hit _ _ _ _ _ _ V); exact HT]. intros _ X. destruct HT as (d & K1 & _ & K2 & _). destruct X as (d' & K3 & _ & K4 & _). destruct (conn_client _ _ _ _ _ _ T K1 K3 K2 K4) as [-> _]. contradiction.
    + intro X. change (@nil bytes) with (@nil bytes ++ []). eapply written_app; [apply G4; intros OP; apply X; auto; left; auto|apply G6]. intros OP g J Q. apply (X OP g); [right; auto|]. apply (view_hit _ _ _ _ _ _ V). exact Q.
Qed.
(** the JOIN for one server *)
Lemma strchr_first : forall c a b, ~ In c a -> strchr c (a ++ c :: b) = Some (a, c :: b).
Proof.
  intros c a b N. pose proof (strchr_spec c (a ++ c :: b)) as K. destruct (strchr c (a ++ c :: b)) as [[p f]|].
  - destruct K as (E & NP & t & ->). revert p E NP. induction a as [|x a IH]; intros [|y p] E NP; cbn in E.
    + injection E as <-. reflexivity.
    + injection E as <- _. destruct NP. left; auto.
    + injection E as -> _. destruct N. left; auto.
    + injection E as <- E. assert (Q : Some (a, c :: b) = Some (p, c :: t)) by (symmetry; apply IH; [intro; apply N; right; auto|exact E|intro; apply NP; right; auto]). injection Q as -> ->. reflexivity.
  - destruct K. apply in_app_iff. right. left. auto.
Qed.
Lemma strchr_none : forall c a, ~ In c a -> strchr c a = None.
Proof. intros c a N. pose proof (strchr_spec c a) as K. destruct (strchr c a) as [[p f]|]; auto. destruct K as (-> & _ & t & ->). destruct N. apply in_app_iff. right. left. auto. Qed.
Lemma relayed_line : forall s d e t, cl_type e = T_SERVER -> line_from s d e t = relayed d t.
Proof. intros s d e t E. unfold line_from, relayed. rewrite E. reflexivity. Qed.
Lemma fmt_mode : forall x y z, fmt (B "MODE %s +%s %s") [FS x; FS y; FS z] = mode_text x y z.
Proof. intros x y z. unfold mode_text. change (fmt (B "MODE %s +%s %s") [FS x; FS y; FS z]) with (B "MODE " ++ x ++ B " +" ++ y ++ " "%char :: z ++ []). rewrite app_nil_r. reflexivity. Qed.
Lemma id_of_ne : forall d, cl_id d <> [] -> id_of d = cl_id d.
Proof. intros d N. unfold id_of. destruct (cl_id d); congruence. Qed.
Lemma cb_join_ok : forall name ms str h u c d j t v t', ~ In BEL name -> str = name ++ match ms with [] => [] | _ => BEL :: ms end -> List.length str < COMMAND_LEN ->
  tree t -> assoc u (s_heap t) = Some d -> settled d -> fits d -> cl_id d <> [] -> assoc h (s_heap t) = Some c -> cl_type c = T_SERVER -> cl_conn c = Some j ->
  cb_join_forward h u str t = Ok v t' ->
  view t t' /\ (forall k, k <> j -> written t t' k []) /\ written t t' j (if is_open t j then map (relayed d) (join_server (old_peer t j) name ms (cl_id d)) else []).
Proof.
  intros name ms str h u c d j t v t' NB ES LS T AU S F NI AH TS CJ H. unfold cb_join_forward in H. cbv zeta in H. rewrite (strlcpy_short _ _ LS) in H.
  bd H as o s1 H1. apply Client_Conn_ok in H1. destruct H1 as (-> & c1 & A1 & ->). rewrite AH in A1. injection A1 as <-. rewrite CJ in H. bd H as i s1 H1. apply nonnull_ok in H1. destruct H1 as [E1 ->]. injection E1 as <-.
  bd H as cn s1 H1. apply con_ok in H1. destruct H1 as [-> AN]. assert (OP : old_peer t j = co_rfc1459 cn) by (unfold old_peer; rewrite lookup_assoc; destruct AN as [-> |[-> ->]]; reflexivity). rewrite OP. clear OP AN.
  assert (W : forall f l vals x y z, assoc u (s_heap x) = Some d -> assoc h (s_heap x) = Some c -> tree x -> prints l x vals -> IRC_WriteStrClientPrefix h u f l x = Ok y z -> view x z /\ (forall k, k <> j -> written x z k []) /\ written x z j (if is_open x j then [relayed d (fmt (B f) vals)] else [])).
  { clear - CJ TS S F NI. intros f l vals x y z A1 A2 T P H. destruct (prefix_ok _ _ _ _ _ _ _ _ _ A1 S F NI P H) as (nx & e & k & N1 & N2 & N3 & V & -> & O). assert (nx = h) by (exact (local_hop _ _ _ _ _ T A2 CJ N1)). subst nx. rewrite A2 in N2. injection N2 as <-. rewrite CJ in N3. injection N3 as <-. split; auto.
    rewrite (relayed_line _ _ _ _ TS) in O. destruct (is_open x j).
    - pose proof (written_one _ _ _ _ O) as Q. split; [intros k NE; specialize (Q k); destruct (Nat.eqb_spec j k); [congruence|exact Q]|]. specialize (Q j). rewrite Nat.eqb_refl in Q. exact Q.
    - split; intros; apply written_nil; exact O. }
  assert (PS1 : forall x str, prints [aS str] x [FS str]) by (intros; apply prints_S, prints_nil).
  unfold join_server. destruct (co_rfc1459 cn).
  - destruct ms as [|m ms].
    + rewrite app_nil_r in ES. subst str. rewrite (strchr_none _ _ NB) in H. cbv beta iota zeta in H. bd H as x s1 H1. unfold void in H1. bd H1 as y s2 H2. apply ret_ok in H1. destruct H1 as [_ ->]. change (beq [] []) with true in H. cbn [negb whenM] in H. apply ret_ok in H. destruct H as [_ <-].
      destruct (W _ _ _ _ _ _ AU AH T (PS1 _ _) H2) as (V & W1 & W2). split; auto. split; auto. cbn [mode_after map]. change (fmt (B "JOIN %s") [FS name]) with (B "JOIN " ++ name ++ []) in W2. rewrite app_nil_r in W2. exact W2.
    + assert (EC : strchr BEL str = Some (name, BEL :: m :: ms)) by (rewrite ES; apply strchr_first; exact NB). rewrite EC in H. cbv beta iota zeta in H. cbn [tl] in H. bd H as x s1 H1. unfold void in H1. bd H1 as y s2 H2. apply ret_ok in H1. destruct H1 as [_ ->].
      assert (BN : beq (m :: ms) [] = false) by (destruct (beq (m :: ms) []) eqn:E; auto; apply beq_eq in E; discriminate E). rewrite BN in H. cbn [negb whenM] in H. unfold void in H. bd H as z s3 H3. apply ret_ok in H. destruct H as [_ ->].
      destruct (W _ _ _ _ _ _ AU AH T (PS1 _ _) H2) as (V & W1 & W2). pose proof (view_tree _ _ V T) as T2. assert (AU2 : assoc u (s_heap s2) = Some d) by (rewrite (v_heap _ _ V); exact AU). assert (AH2 : assoc h (s_heap s2) = Some c) by (rewrite (v_heap _ _ V); exact AH).
      assert (P2 : prints [aS name; aS (m :: ms); aID u] s2 [FS name; FS (m :: ms); FS (id_of d)]) by (apply prints_S, prints_S, prints_ID; [exact AU2|apply prints_nil]).
      destruct (W _ _ _ _ _ _ AU2 AH2 T2 P2 H3) as (V2 & W3 & W4). rewrite fmt_mode, (id_of_ne _ NI), (view_open _ _ _ V) in W4. change (fmt (B "JOIN %s") [FS name]) with (B "JOIN " ++ name ++ []) in W2. rewrite app_nil_r in W2.
      split; [etransitivity; eauto|]. split; [intros k NE; change (@nil bytes) with (@nil bytes ++ []); eapply written_app; [apply W1|apply W3]; auto|]. cbn [mode_after map]. destruct (is_open t j); [|change (@nil bytes) with (@nil bytes ++ []); eapply written_app; eauto].
      match goal with |- written _ _ _ [?a; ?b] => change [a; b] with ([a] ++ [b]) end. eapply written_app; eauto.
  - cbv beta iota zeta in H. bd H as x s1 H1. unfold void in H1. bd H1 as y s2 H2. apply ret_ok in H1. destruct H1 as [_ ->]. change (beq [] []) with true in H. cbn [negb whenM] in H. apply ret_ok in H. destruct H as [_ <-].
    destruct (W _ _ _ _ _ _ AU AH T (PS1 _ _) H2) as (V & W1 & W2). split; auto. split; auto. change (fmt (B "JOIN %s") [FS str]) with (B "JOIN " ++ str ++ []) in W2. rewrite app_nil_r in W2. rewrite ES in W2. exact W2.
Qed.
(** the broadcast *)
Lemma wr_old : forall s s' j, wr s s' -> old_peer s' j = old_peer s j.
Proof.
  intros s s' j W. assert (E : forall x, old_peer x j = match assoc j (s_conns x) with Some c => co_rfc1459 c | None => false end) by (intro; unfold old_peer; rewrite lookup_assoc; reflexivity). rewrite !E. destruct (wr_tabs _ _ W) as [_ K]. specialize (K j). destruct (assoc j (s_conns s)) as [cn|], (assoc j (s_conns s')) as [cn'|]; try contradiction; auto. cbn [orel] in K. apply K.
Qed.
Lemma join_cast : forall name ms str u d except s v s', ~ In BEL name -> str = name ++ match ms with [] => [] | _ => BEL :: ms end -> List.length str < COMMAND_LEN ->
  tree s -> NoDup (s_clients s) -> assoc u (s_heap s) = Some d -> settled d -> fits d -> cl_id d <> [] ->
  Servers_CB except None (fun to => cb_join_forward to u str) s = Ok v s' ->
  view s s' /\ forall j, (is_open s j = true -> forall g, hit s except None g j -> written s s' j (map (relayed d) (join_server (old_peer s j) name ms (cl_id d)))) /\
    ((is_open s j = true -> forall g, ~ hit s except None g j) -> written s s' j []).
Proof.
  intros name ms str u d except s v s' NB ES LS T N AU S F NI H. unfold Servers_CB in H. bd H as cs s1 H1. unfold Clients in H1. rdgets H1.
  destruct (cb_list (fun to => cb_join_forward to u str) (fun j => map (relayed d) (join_server (old_peer s j) name ms (cl_id d))) (fun t => wr s t /\ view s t) except None) with (l := s_clients s) (s := s) (u := v) (s' := s') as (V & _ & G); auto.
  - intros h c j t w t' TT [IW IV] AH TS CJ H1. assert (AT : assoc u (s_heap t) = Some d) by (rewrite (v_heap _ _ IV); exact AU).
    destruct (cb_join_ok _ _ _ _ _ _ _ _ _ _ _ NB ES LS TT AT S F NI AH TS CJ H1) as (V1 & W1 & W2). split; auto. split; [split; [etransitivity; [exact IW|xlast H1]|etransitivity; eauto]|]. split; auto. rewrite (wr_old _ _ _ IW) in W2. exact W2.
  - split; reflexivity.
  - split; auto. intro j. destruct (G j) as [G1 G2]. split.
    + intros OP g HT. apply (G1 OP g); auto. destruct HT as (e & K & _). eapply tr_listed; eauto.
    + intro X. apply G2. intros OP g _. apply X; auto.
Qed.
(** ** the checks *)
Definition names (l : list (chandle * channel)) : list (chandle * (bytes * N)) := map (fun p => (fst p, (ch_name (snd p), ch_hash (snd p)))) l.
Record mild (s s' : state) : Prop := mk_mild { mi_seat : seat s s'; mi_mb : s_members s' = s_members s; mi_names : names (s_chans s') = names (s_chans s) }.
#[export] Instance mild_po : PreOrder mild.
Proof. split; [intro; split; reflexivity|]. intros a b c [] []. split; [etransitivity; eauto|congruence|congruence]. Qed.
Lemma names_aupd : forall ch f l, (forall c, ch_name (f c) = ch_name c /\ ch_hash (f c) = ch_hash c) -> names (aupd ch f l) = names l.
Proof. intros i f l K. unfold names, aupd. rewrite map_map. apply map_ext. intros [j c]. destruct (Nat.eqb _ _); cbn; auto. destruct (K c) as [-> ->]. reflexivity. Qed.
Lemma names_search : forall n l l', names l' = names l -> option_map fst (find (fun p => chan_is n (snd p)) l') = option_map fst (find (fun p => chan_is n (snd p)) l).
Proof.
  induction l as [|[a x] l IH]; intros [|[b y] l'] E; cbn [names map fst snd] in E; try discriminate E; auto. injection E as E1 E2 E3 E4. subst b. cbn [find snd].
  assert (E : chan_is n y = chan_is n x) by (unfold chan_is; rewrite E2, E3; auto). rewrite E. destruct (chan_is n x); auto.
Qed.
Lemma names_assoc : forall ch l l' k, names l' = names l -> assoc ch l = Some k -> exists k', assoc ch l' = Some k' /\ ch_name k' = ch_name k.
Proof.
  induction l as [|[a x] l IH]; intros [|[b y] l'] k E A; cbn [names map fst snd] in E; try discriminate E; try discriminate A. injection E as E1 E2 E3 E4. subst b. cbn [assoc] in *. destruct (Nat.eqb _ _).
  - injection A as <-. eauto.
  - eapply IH; eauto.
Qed.
Definition keepsn (put : mlist -> channel -> channel) : Prop := forall l c, ch_name (put l c) = ch_name c /\ ch_hash (put l c) = ch_hash c.
Lemma check_mild : forall (get : channel -> mlist) (put : mlist -> channel -> channel) ch h s r s' c, keepsn put -> assoc h (s_heap s) = Some c -> fits c -> settled c ->
  Check_List (c <- chan ch ;; ret (get c)) (fun l => upd_chan ch (put l)) h s = Ok r s' -> mild s s'.
Proof.
  intros get put ch h s r s' c KN AC F S H. unfold Check_List in H. bd H as l s1 H1. bd H1 as k1 s2 H2. apply chan_ok in H2. destruct H2 as [H2 ->]. apply ret_ok in H1. destruct H1 as [-> ->].
  destruct (get k1) as [|e l0] eqn:E; [apply ret_ok in H; destruct H as [-> ->]; reflexivity|].
  bd H as mc s1 H1. destruct (Mask_settled _ _ _ _ _ AC S H1) as [-> _]. bd H as m s2 H3. destruct (Mask_full _ _ _ _ _ AC F H3) as [-> ->].
  destruct (Lists_CheckReason _ _ _) as [r1 l']. bd H as u s2 H4. apply ret_ok in H. destruct H as [-> ->]. apply upd_chan_ok in H4. destruct H4 as (k2 & A2 & ->). split; [split; reflexivity|reflexivity|]. apply names_aupd. apply KN.
Qed.
Lemma allowed_mild : forall h ch name key s b s' c, assoc h (s_heap s) = Some c -> fits c -> settled c -> join_allowed h ch name key s = Ok b s' -> s_members s' = s_members s /\ (b = true -> mild s s').
Proof.
  intros h ch name key s b s' c A F S H. unfold join_allowed in H. cbv zeta in H. bd H as op s1 H1. apply HasMode_ok in H1. destruct H1 as (-> & _). destruct op; [apply ret_ok in H; destruct H as [_ ->]; split; [reflexivity|intros _; reflexivity]|].
  assert (K1 : keepsn set_ch_bans) by (intros l x; split; reflexivity). assert (K2 : keepsn set_ch_excepts) by (intros l x; split; reflexivity). assert (K3 : keepsn set_ch_invites) by (intros l x; split; reflexivity).
  bd H as bb s1 H1. unfold Check_Bans in H1. bd H1 as r1 s2 H2. apply ret_ok in H1. destruct H1 as [_ ->]. apply (check_mild _ _ _ _ _ _ _ _ K1 A F S) in H2. assert (A2 : assoc h (s_heap s2) = Some c) by (rewrite (se_heap _ _ (mi_seat _ _ H2)); exact A).
  bd H as be s3 H1. unfold Check_Excepts in H1. bd H1 as r3 s4 H4. apply ret_ok in H1. destruct H1 as [_ ->]. apply (check_mild _ _ _ _ _ _ _ _ K2 A2 F S) in H4. assert (A4 : assoc h (s_heap s4) = Some c) by (rewrite (se_heap _ _ (mi_seat _ _ H4)); exact A2).
  bd H as bi s5 H1. unfold Check_Invites in H1. bd H1 as r5 s6 H6. apply ret_ok in H1. destruct H1 as [_ ->]. apply (check_mild _ _ _ _ _ _ _ _ K3 A4 F S) in H6. assert (Q : mild s s6) by (transitivity s2; auto; transitivity s4; auto). clear H2 H4 H6.
  rewrite <- (mi_mb _ _ Q).
  assert (DENY : forall f y, (void (IRC_WriteErrClient h f [aID h; aS name]) ;;; ret false) s6 = Ok b y -> s_members y = s_members s6 /\ (b = true -> mild s y)).
  { intros f y K. bd K as v z K5. apply ret_ok in K. destruct K as [-> ->]. split; [|discriminate]. assert (W : wr s6 z) by xlast K5. apply (wr_same _ _ W). }
  destruct (_ && _ && _) in H; [exact (DENY _ _ H)|]. bd H as fi s7 H1. same H1. destruct (_ && _) in H; [exact (DENY _ _ H)|]. bd H as fk s7 H1. same H1. destruct (negb _) in H; [exact (DENY _ _ H)|].
  bd H as fl s7 H1. same H1. bd H as fm s7 H1. same H1. bd H as fn s7 H1. same H1. destruct (_ && _) in H; [exact (DENY _ _ H)|]. bd H as fz s7 H1. same H1. destruct fz; [exact (DENY _ _ H)|].
  bd H as fo s7 H1. same H1. destruct (_ && _) in H; [exact (DENY _ _ H)|]. bd H as fr s7 H1. same H1. bd H as fg s7 H1. same H1. destruct (_ && _) in H; [exact (DENY _ _ H)|]. apply ret_ok in H. destruct H as [_ ->]. auto.
Qed.
(** the actor is the client itself, or a user behind a server *)
Definition acting (h u : handle) (c d : client) : Prop := cl_type c = T_USER /\ u = h /\ d = c \/ cl_type c = T_SERVER.
Lemma join_check_mild : forall h u name o key flags s r s' c d, assoc h (s_heap s) = Some c -> assoc u (s_heap s) = Some d -> fits d -> settled d -> acting h u c d ->
  join_check h u name o key flags s = Ok r s' -> s_members s' = s_members s /\ forall f, r = inr f -> mild s s' /\ (f = flags \/ f = Some (B "o")).
Proof.
  intros h u name o key flags s r s' c d AH AU F S AC H. unfold join_check in H. bd H as ty s1 H1. apply Client_Type_ok in H1. destruct H1 as (-> & c1 & A1 & ->). rewrite AH in A1. injection A1 as <-. destruct AC as [(TU & -> & ->)|TS].
  - rewrite TU in H. change (ctype_eqb T_USER T_USER) with true in H. cbv iota zeta in H.
    bd H as pre s1 H1. assert (P : s_members s1 = s_members s /\ (pre = false -> s1 = s)).
    { destruct o as [ch|]; [apply IsMemberOf_on in H1; destruct H1 as [-> _]; auto|]. bd H1 as ty s2 H2. unfold cf in H2. rdgets H2. destruct (negb _) in H1; [|apply ret_ok in H1; destruct H1 as [_ ->]; auto].
      bd H1 as v s2 H2. apply ret_ok in H1. destruct H1 as [-> ->]. split; [|discriminate]. assert (W : wr s s2) by xlast H2. apply (wr_same _ _ W). }
    clear H1. destruct P as [M1 P]. destruct pre; [apply ret_ok in H; destruct H as [-> ->]; split; auto; discriminate|]. specialize (P eq_refl). subst s1.
    bd H as mj s2 H2. unfold cf in H2. rdgets H2. bd H as n s2 H2. unfold Channel_CountForUser in H2. rdgets H2. destruct (_ && _)%bool in H.
    { bd H as ok s2 H2. assert (W2 : wr s s2) by xlast H2. apply ret_ok in H. destruct H as [-> ->]. split; [apply (wr_same _ _ W2)|discriminate]. }
    bd H as q s2 H2. assert (Q : s_members s2 = s_members s /\ forall f, q = Some f -> mild s s2 /\ (f = flags \/ f = Some (B "o"))).
    { destruct o as [ch|].
      - bd H2 as ok s3 H3. apply ret_ok in H2. destruct H2 as [-> ->]. destruct (allowed_mild _ _ _ _ _ _ _ _ AH F S H3) as [Q1 Q2]. split; auto. intros f E. destruct ok; [|discriminate E]. injection E as <-. split; auto.
      - apply ret_ok in H2. destruct H2 as [-> ->]. split; auto. intros f E. split; [reflexivity|]. destruct (negb _) in E; injection E as <-; auto. }
    clear H2. destruct Q as [Q1 Q2]. destruct q as [f|]; [|apply ret_ok in H; destruct H as [-> ->]; split; auto; discriminate]. destruct (Q2 f eq_refl) as [Q3 Q4].
    bd H as oi s3 H3. same H3. bd H as i s3 H3. apply nonnull_ok in H3. destruct H3 as [_ ->]. bd H as v s3 H3. apply ret_ok in H. destruct H as [-> ->]. destruct (UpdateIdle_view _ _ _ _ H3) as [V O].
    split; [rewrite (v_members _ _ V); auto|]. intros f' E. injection E as <-. split; auto. transitivity s2; auto. split; [apply view_seat; auto|apply V|]. rewrite (v_chans _ _ V). reflexivity.
  - rewrite TS in H. change (ctype_eqb T_SERVER T_USER) with false in H. cbv iota in H. bd H as v s1 H1. apply ret_ok in H. destruct H as [-> ->].
    assert (Q : mild s s1). { destruct o as [ch|]; [|apply ret_ok in H1; destruct H1 as [_ ->]; reflexivity]. unfold void in H1. bd H1 as w s2 H2. apply ret_ok in H1. destruct H1 as [_ ->]. unfold Check_Invites in H2. bd H2 as r3 s3 H3. apply ret_ok in H2. destruct H2 as [_ ->]. refine (check_mild _ _ _ _ _ _ _ _ _ AU F S H3). intros l x; split; reflexivity. }
    split; [apply Q|]. intros f E. injection E as <-. auto.
Qed.
(** ** the new member *)
Record jst (u : handle) (ch : chandle) (ms name : bytes) (s s' : state) : Prop := mk_jst {
  js_seat : seat s s'; js_mb : s_members s' = mkMember u ch ms :: s_members s; js_name : exists k, assoc ch (s_chans s') = Some k /\ same_name name (ch_name k) }.
Lemma jst_mode : forall u ch ms name s s1 b s2 x, jst u ch ms name s s1 -> Channel_UserModeAdd ch u x s1 = Ok b s2 -> jst u ch (fst (mode_add ms x)) name s s2.
Proof.
  intros h ch ms name s s1 u s2 x [] H. unfold Channel_UserModeAdd in H. bd H as o s3 H3. unfold Get_Cl2Chan in H3. rdgets H3. bd H as mb s3 H3. apply nonnull_ok in H3. destruct H3 as [F ->].
  rewrite js_mb0 in F. assert (E : is_mb ch h (mkMember h ch ms) = true) by (unfold is_mb, heq; cbn; rewrite !Nat.eqb_refl; reflexivity). cbn [find] in F. rewrite E in F. injection F as <-.
  cbn [mb_modes] in H. destruct (mode_add ms x) as [ms1 b1]. bd H as v s3 H3. apply modify_ok in H3. apply ret_ok in H. destruct H as [-> ->]. subst s3. split; cbn [s_members s_chans set_s_members]; auto.
  - destruct js_seat0. split; auto.
  - rewrite js_mb0. cbn [upd_mb]. rewrite E. reflexivity.
Qed.
Lemma jst_modes : forall u ch name s fl ms s1 v s2, jst u ch ms name s s1 -> mfor fl (fun c => void (Channel_UserModeAdd ch u c)) s1 = Ok v s2 ->
  exists ms', jst u ch ms' name s s2 /\ incl ms' (ms ++ fl).
Proof.
  intros u ch name s. induction fl as [|x fl IH]; intros ms s1 v s2 J H; cbn [mfor] in H.
  - apply ret_ok in H. destruct H as [_ ->]. exists ms. split; auto. rewrite app_nil_r. apply incl_refl.
  - bd H as w s3 H3. unfold void in H3. bd H3 as y s4 H4. apply ret_ok in H3. destruct H3 as [_ ->]. apply (jst_mode _ _ _ _ _ _ _ _ _ J) in H4. destruct (IH _ _ _ _ H4 H) as (ms' & J2 & I). exists ms'. split; auto.
    intros z Z. apply I in Z. apply in_app_iff in Z. destruct Z as [Z|Z]; [apply mode_add_In in Z; destruct Z as [Z | ->]|]; apply in_app_iff; cbn; auto.
Qed.
Lemma jst_chan : forall u ch ms name s s1 f, jst u ch ms name s s1 -> (forall c, ch_name (f c) = ch_name c) -> jst u ch ms name s (set_chan ch f s1).
Proof.
  intros u ch ms name s s1 f [J1 J2 (k & A & E)] K. split; [destruct J1; split; auto|exact J2|]. exists (f k). unfold set_chan. cbn [s_chans set_s_chans]. rewrite assoc_aupd, Nat.eqb_refl, A. cbn [option_map]. split; auto. rewrite K. exact E.
Qed.
Lemma jst_chmode : forall u ch ms name s s1 x b s2, jst u ch ms name s s1 -> Channel_ModeAdd ch x s1 = Ok b s2 -> jst u ch ms name s s2.
Proof.
  intros u ch ms name s s1 x b s2 J H. unfold Channel_ModeAdd in H. bd H as c s3 H3. apply chan_ok in H3. destruct H3 as [_ ->]. destruct (mode_add _ _) as [m1 b1]. bd H as v s3 H3. apply ret_ok in H. destruct H as [_ ->]. apply upd_chan_ok in H3. destruct H3 as (k & A & ->). apply jst_chan; auto.
Qed.
Lemma mild_jst : forall u ch ms name s s1 s2, mild s s1 -> jst u ch ms name s1 s2 -> jst u ch ms name s s2.
Proof. intros u ch ms name s s1 s2 M [J1 J2 J3]. split; auto; [transitivity s1; auto; apply M|]. rewrite J2, (mi_mb _ _ M). reflexivity. Qed.
Lemma same_name_refl : forall n, same_name n n.
Proof. intro n. reflexivity. Qed.
Lemma join_seats : forall u d name f o s s1 ok s2 (K : chandle -> M (option bool)) r s', NoDup (map fst (s_chans s)) -> assoc u (s_heap s) = Some d -> fits d -> mild s s1 ->
  Channel_Search name s = Ok o s -> Channel_Join u name s1 = Ok ok s2 ->
  (if negb ok then ret None
   else ch <- (match o with
               | Some ch => ret ch
               | None =>
                   o' <- Channel_Search name ;; ch <- nonnull o' ;;
                   nm <- Channel_Name ch ;;
                   whenM (Ascii.eqb (hd0 nm) "+") (void (Channel_ModeAdd ch "t") ;;; void (Channel_ModeAdd ch "n")) ;;;
                   ret ch
               end) ;;
        join_set_channelmodes ch u f ;;; K ch) s2 = Ok r s' ->
  s_members s' = s_members s \/
  valid_chan name = true /\ exists ch ms s3, jst u ch ms name s s3 /\ incl ms ("o"%char :: match f with Some t => t | None => [] end) /\ K ch s3 = Ok r s'.
Proof.
  intros u d name f o s s1 ok s2 K r s' ND AU F MI SE H1 H. unfold Channel_Join in H1. destruct (valid_chan name) eqn:VC; cbn [negb] in H1.
  2: { bd H1 as v s3 H3. assert (W : wr s1 s3) by xlast H3. apply ret_ok in H1. destruct H1 as [-> ->]. cbn [negb] in H. apply ret_ok in H. destruct H as [_ ->]. left. rewrite <- (mi_mb _ _ MI). apply (wr_same _ _ W). }
  assert (AU1 : assoc u (s_heap s1) = Some d) by (rewrite (se_heap _ _ (mi_seat _ _ MI)); exact AU).
  bd H1 as o1 s3 H3. assert (E3 : o1 = o /\ s3 = s1). { unfold Channel_Search, gets in H3, SE. injection H3 as H3 E. injection SE as SE. split; auto. rewrite <- H3, <- SE. apply names_search, MI. } destruct E3 as [-> ->]. clear H3.
  assert (Q : s_members s2 = s_members s /\ ok = false \/ ok = true /\ exists ch, jst u ch [] name s s2 /\ match o with Some ch0 => ch0 = ch | None => Channel_Search name s2 = Ok (Some ch) s2 end).
  { destruct o as [ch|].
    - bd H1 as b s3 H3. apply IsMemberOf_on in H3. destruct H3 as [-> _]. destruct b; [apply ret_ok in H1; destruct H1 as [-> ->]; left; split; auto; apply MI|].
      bd H1 as v s3 H3. apply ret_ok in H1. destruct H1 as [-> ->]. destruct (userish_add _ _ _ _ _ _ AU1 F H3) as (-> & k1 & AK1). right. split; auto. exists ch. split; auto. eapply mild_jst; [exact MI|]. split; [split; reflexivity|reflexivity|]. exists k1. split; auto.
      unfold Channel_Search, gets in SE. injection SE as SE. destruct (find _ _) as [[ch1 k]|] eqn:FD; [|discriminate SE]. injection SE as ->. apply find_some in FD. destruct FD as [F1 F2]. apply In_assoc in F1; auto.
      destruct (names_assoc _ _ _ _ (mi_names _ _ MI) F1) as (k' & A' & EN). rewrite AK1 in A'. injection A' as <-. rewrite EN. unfold chan_is in F2. apply andb_true_iff in F2. apply same_name_iff. apply F2.
    - bd H1 as ch s3 H3. apply Channel_Create_ok in H3. destruct H3 as [E1 E3]. bd H1 as v s4 H4. apply ret_ok in H1. destruct H1 as [-> ->].
      assert (AU3 : assoc u (s_heap s3) = Some d) by (rewrite E3; exact AU1). destruct (userish_add _ _ _ _ _ _ AU3 F H4) as (-> & _). right. split; auto. exists ch.
      assert (VN : strlcpy CHANNEL_NAME_LEN name = name). { apply strlcpy_short. unfold valid_chan in VC. rewrite !andb_true_iff in VC. destruct VC as [[_ V] _]. apply Nat.ltb_lt in V. exact V. }
      split.
      + eapply mild_jst; [exact MI|]. rewrite E3. split; [split; reflexivity|reflexivity|]. eexists. cbn [s_chans set_s_members set_s_chnext set_s_chans assoc]. rewrite Nat.eqb_refl. split; [reflexivity|]. cbn [ch_name new_channel]. rewrite VN. reflexivity.
      + rewrite E3. unfold Channel_Search, gets. cbn [s_chans set_s_members set_s_chnext set_s_chans find snd]. unfold chan_is at 1. cbn [ch_hash ch_name new_channel]. rewrite VN.
        assert (caseeq name name = true) as -> by (apply same_name_iff; reflexivity). rewrite N.eqb_refl. reflexivity. }
  clear H1. destruct Q as [[Q ->]|(-> & ch & J & SO)]; cbn [negb] in H; [apply ret_ok in H; destruct H as [_ ->]; auto|]. right. split; auto.
  bd H as ch' s4 H4. assert (Q : ch' = ch /\ jst u ch [] name s s4).
  { destruct o as [ch0|]; [subst ch0; apply ret_ok in H4; destruct H4 as [-> ->]; auto|]. bd H4 as o' s5 H5. rewrite SO in H5. injection H5 as <- <-. bd H4 as ch1 s5 H5. apply nonnull_ok in H5. destruct H5 as [E5 ->]. injection E5 as <-.
    bd H4 as nm s5 H5. unfold Channel_Name in H5. bd H5 as k s6 H6. apply chan_ok in H6. destruct H6 as [H6 ->]. apply ret_ok in H5. destruct H5 as [-> ->].
    bd H4 as v s5 H5. apply ret_ok in H4. destruct H4 as [-> ->]. split; auto. destruct (Ascii.eqb (hd0 (ch_name k)) "+") eqn:E; cbn [whenM] in H5; [|apply ret_ok in H5; destruct H5 as [_ ->]; auto].
    bd H5 as w s6 H7. unfold void in H7. bd H7 as w2 s7 H8. apply ret_ok in H7. destruct H7 as [_ ->]. unfold void in H5. bd H5 as w3 s8 H9. apply ret_ok in H5. destruct H5 as [_ ->]. eapply jst_chmode; [|exact H9]. eapply jst_chmode; [|exact H8]. exact J. }
  clear H4. destruct Q as [-> J4]. bd H as v s5 H5. unfold join_set_channelmodes in H5. bd H5 as w s6 H6. destruct (jst_modes _ _ _ _ _ _ _ _ _ J4 H6) as (ms & J6 & I6). cbn [app] in I6.
  bd H5 as p s7 H7. same H7. bd H5 as au s7 H7. same H7. bd H5 as op s7 H7. same H7. destruct (p && _ && op)%bool eqn:PA; cbn [whenM] in H5.
  - unfold void in H5. bd H5 as w1 s7 H7. apply ret_ok in H5. destruct H5 as [_ ->]. exists ch, (fst (mode_add ms "o")), s7. split; [eapply jst_mode; eauto|]. split; auto. intros z Z. apply mode_add_In in Z. destruct Z as [Z | ->]; [right; apply I6; exact Z|left; auto].
  - apply ret_ok in H5. destruct H5 as [_ ->]. exists ch, ms, s6. split; auto. split; auto. intros z Z. right. apply I6. exact Z.
Qed.
(** ** what is told *)
Lemma told_ok : forall ms, strlcpy (CHANNEL_MODE_LEN - 1) ms = told ms.
Proof. intro ms. unfold strlcpy, told. change (CHANNEL_MODE_LEN - 1) with 20. destruct (20 <=? List.length ms) eqn:E; [reflexivity|]. apply Nat.leb_gt in E. rewrite firstn_all2 by lia. reflexivity. Qed.
Lemma amp_lower : forall x, Ascii.eqb (tolower x) "&" = Ascii.eqb x "&".
Proof. intros [[] [] [] [] [] [] [] []]; reflexivity. Qed.
Lemma same_local : forall a b, same_name a b -> Ascii.eqb (hd0 b) "&" = Ascii.eqb (hd0 a) "&".
Proof.
  intros a b E. apply same_name_iff in E. destruct a as [|x a], b as [|y b]; auto; try (apply caseeq_len in E; discriminate E). cbn [hd0]. unfold caseeq in E. apply beq_eq in E. cbn [lower map] in E. injection E as E _. rewrite <- (amp_lower x), <- (amp_lower y), E. reflexivity.
Qed.
Lemma cut0_plain : forall t, ~ In NUL t -> cut0 t = t.
Proof. intros t N. apply cut0_id. destruct (memb NUL t) eqn:E; auto. apply memb_In in E. contradiction. Qed.
Lemma told_in : forall x ms, In x (told ms) -> In x ms.
Proof. intros x ms I. unfold told in I. rewrite <- (firstn_skipn 19 ms). apply in_app_iff. auto. Qed.
Lemma forward_ok : forall h u d ch k ms name s v s', tree s -> NoDup (s_clients s) -> NoDup (map fst (s_conns s)) -> assoc u (s_heap s) = Some d -> settled d -> fits d -> cl_id d <> [] ->
  (exists l, s_members s = mkMember u ch ms :: l) -> assoc ch (s_chans s) = Some k -> same_name name (ch_name k) -> valid_chan name = true -> ~ In NUL name -> ~ In NUL ms ->
  join_forward h u ch name s = Ok v s' ->
  view s s' /\ forall j, is_open s j = true ->
    (forall g, hit s (Some h) None g j -> written s s' j (if Ascii.eqb (hd0 name) "&" then [] else map (relayed d) (join_server (old_peer s j) name (told ms) (cl_id d)))) /\
    (forall e g, is_on s g ch -> g <> h -> assoc g (s_heap s) = Some e -> cl_conn e = Some j -> cl_type e <> T_SERVER -> written s s' j (map (line_from s d e) (join_user name (told ms) (cl_id d)))) /\
    ((forall g, ~ hit s (Some h) None g j) -> (forall e g, is_on s g ch -> g <> h -> assoc g (s_heap s) = Some e -> cl_conn e = Some j -> cl_type e <> T_SERVER -> False) -> written s s' j []).
Proof.
  intros h u d ch k ms name s v s' T NC NK AU S F NI (l & EM) AK SN VC NN NM H. unfold join_forward in H. bd H as um s1 H1. unfold Channel_UserModes in H1. bd H1 as o s2 H2. unfold Get_Cl2Chan in H2. rdgets H2.
  rewrite EM in H1. cbn [find] in H1. assert (E : is_mb ch u (mkMember u ch ms) = true) by (unfold is_mb, heq; cbn; rewrite !Nat.eqb_refl; reflexivity). rewrite E in H1. clear E. bd H1 as mb s2 H2. apply nonnull_ok in H2. destruct H2 as [E ->]. injection E as <-. apply ret_ok in H1. destruct H1 as [-> ->]. cbn [mb_modes] in H.
  rewrite told_ok in H. cbv zeta in H. bd H as loc s1 H1. unfold Channel_IsLocal in H1. bd H1 as k1 s2 H2. apply chan_ok in H2. destruct H2 as [AK1 ->]. rewrite AK in AK1. injection AK1 as <-. apply ret_ok in H1. destruct H1 as [-> ->]. rewrite (same_local _ _ SN) in H.
  assert (VN : List.length name < 51 /\ ~ In BEL name). { unfold valid_chan in VC. rewrite !andb_true_iff in VC. destruct VC as [[_ V1] V2]. apply Nat.ltb_lt in V1. split; [exact V1|]. intro I. rewrite forallb_forall in V2. specialize (V2 _ I). discriminate V2. }
  destruct VN as [LN NB]. assert (LT : List.length (told ms) <= 19) by (unfold told; rewrite firstn_length; lia). assert (NT : ~ In NUL (told ms)) by (intro I; apply NM, told_in; exact I).
  remember (told ms) as tm eqn:ET. clear ET. set (m7 := match tm with [] => [] | _ => BEL :: tm end) in H. assert (L7 : List.length m7 <= 20) by (unfold m7; destruct tm; cbn in *; lia). assert (N7 : ~ In NUL m7) by (unfold m7; destruct tm; [auto|intros [X|X]; [discriminate X|auto]]).
  bd H as v1 sa H1.
  assert (QA : view s sa /\ forall j, (is_open s j = true -> forall g, hit s (Some h) None g j -> written s sa j (if Ascii.eqb (hd0 name) "&" then [] else map (relayed d) (join_server (old_peer s j) name tm (cl_id d)))) /\ ((is_open s j = true -> forall g, ~ hit s (Some h) None g j) -> written s sa j [])).
  { destruct (Ascii.eqb (hd0 name) "&"); cbn [negb whenM] in H1; [apply ret_ok in H1; destruct H1 as [_ ->]; split; [reflexivity|]; intro j; split; intros; apply written_nil; reflexivity|].
    bd H1 as str s2 H2. unfold line in H2. apply vsn_ok in H2. destruct H2 as (vals & M2 & ES). apply (prints_S name _ s _ (prints_S m7 _ s _ (prints_nil s))) in M2. destruct M2 as [-> ->].
    assert (E2 : str = name ++ m7). { rewrite ES. change (fmt (B "%s%s") [FS name; FS m7]) with (name ++ m7 ++ []). rewrite app_nil_r, cut0_plain by (rewrite in_app_iff; tauto). apply firstn_all2. rewrite app_length. change (COMMAND_LEN - 1) with 512. lia. }
    eapply join_cast; [exact NB|exact E2| |exact T|exact NC|exact AU|exact S|exact F|exact NI|exact H1]. rewrite E2, app_length. change COMMAND_LEN with 513. lia. }
  clear H1. destruct QA as [VA QA]. assert (TA : tree sa) by (eapply view_tree; eauto). assert (AUA : assoc u (s_heap sa) = Some d) by (rewrite (v_heap _ _ VA); exact AU). assert (NKA : NoDup (map fst (s_conns sa))) by (rewrite (view_keys _ _ VA); exact NK).
  bd H as v2 sb H2. destruct (chan_local _ _ _ _ _ _ _ _ _ _ TA NKA AUA S F NI (prints_S name _ sa _ (prints_nil sa)) H2) as [VB QB]. clear H2. change (fmt (B "JOIN :%s") [FS name]) with (B "JOIN :" ++ name ++ []) in QB. rewrite app_nil_r in QB.
  assert (VAB : view s sb) by (etransitivity; eauto).
  assert (QC : view sb s' /\ forall j, (is_open sb j = true -> forall e g, is_on sb g ch -> g <> h -> assoc g (s_heap sb) = Some e -> cl_conn e = Some j -> cl_type e <> T_SERVER -> written sb s' j (map (line_from s d e) (mode_after name tm (cl_id d)))) /\
    ((is_open sb j = true -> forall e g, is_on sb g ch -> g <> h -> assoc g (s_heap sb) = Some e -> cl_conn e = Some j -> cl_type e <> T_SERVER -> False) -> written sb s' j [])).
  { assert (TB : tree sb) by (exact (view_tree _ _ VAB T)). assert (AUB : assoc u (s_heap sb) = Some d) by (rewrite (v_heap _ _ VAB); exact AU). assert (NKB : NoDup (map fst (s_conns sb))) by (rewrite (view_keys _ _ VAB); exact NK).
    destruct tm as [|m tm]; [change (beq [] []) with true in H; cbn [negb whenM] in H; apply ret_ok in H; destruct H as [_ ->]; split; [reflexivity|]; intro j; split; intros; apply written_nil; reflexivity|].
    assert (BN : beq (m :: tm) [] = false) by (destruct (beq (m :: tm) []) eqn:E; auto; apply beq_eq in E; discriminate E). rewrite BN in H. cbn [negb whenM] in H.
    destruct (chan_local _ _ _ _ _ _ _ _ _ _ TB NKB AUB S F NI (prints_S name _ sb _ (prints_S (m :: tm) _ sb _ (prints_ID _ _ _ sb _ AUB (prints_nil sb)))) H) as [VC2 QC]. rewrite fmt_mode, (id_of_ne _ NI) in QC. split; auto. intro j. destruct (QC j) as [Q1 Q2]. split; auto. intros OP e g I1 I2 I3 I4 I5. cbn [mode_after map]. unfold line_from. rewrite <- (view_shown _ _ _ VAB). apply (Q1 OP e g); auto. }
  clear H. destruct QC as [VC2 QC]. split; [transitivity sb; auto|]. intros j OP. destruct (QA j) as [A1 A2]. destruct (QB j) as [B1 B2]. destruct (QC j) as [C1 C2]. clear QA QB QC. rewrite (view_open _ _ _ VA) in B1, B2. rewrite (view_open _ _ _ VAB) in C1, C2.
  assert (ON1 : forall g, is_on sa g ch <-> is_on s g ch) by (intro; apply view_is_on; exact VA). assert (ON2 : forall g, is_on sb g ch <-> is_on s g ch) by (intro; apply view_is_on; exact VAB). rewrite (v_heap _ _ VA) in B1, B2. rewrite (v_heap _ _ VAB) in C1, C2.
  split; [|split].
  - intros g HT. assert (X : forall e g', assoc g' (s_heap s) = Some e -> cl_conn e = Some j -> cl_type e <> T_SERVER -> False). { intros e g' K1 K2 K3. destruct HT as (x & K4 & K5 & K6 & _). destruct (conn_client _ _ _ _ _ _ T K1 K4 K2 K6) as [_ ->]. contradiction. }
    rewrite <- (app_nil_r (if Ascii.eqb _ _ then _ else _)). eapply written_app; [exact (A1 OP g HT)|]. change (@nil bytes) with (@nil bytes ++ []). eapply written_app; [apply B2|apply C2]; intros _ e g' _ _ K1 K2 K3; exact (X e g' K1 K2 K3).
  - intros e g I1 I2 I3 I4 I5. unfold join_user. cbn [map]. match goal with |- written _ _ _ (?a :: ?b) => change (a :: b) with ([] ++ [a] ++ b) end. eapply written_app; [apply A2; intros _ g' HT; destruct HT as (x & K4 & K5 & K6 & _); destruct (conn_client _ _ _ _ _ _ T I3 K4 I4 K6) as [_ ->]; contradiction|].
    eapply written_app; [|apply (C1 OP e g); auto; apply ON2; exact I1]. unfold line_from. rewrite <- (view_shown _ _ _ VA). apply (B1 OP e g); auto. apply ON1. exact I1.
  - intros X1 X2. change (@nil bytes) with (@nil bytes ++ [] ++ []). eapply written_app; [apply A2; intros _; exact X1|]. eapply written_app; [apply B2|apply C2]; intros _ e g K0 K1 K2 K3 K4; apply (X2 e g); auto; first [apply ON1; exact K0|apply ON2; exact K0].
Qed.
(** ** replies, which only the client itself gets *)
Definition only (i : connid) (s s' : state) : Prop := view s s' /\ forall j, j <> i -> written s s' j [].
Lemma only_refl : forall i s, only i s s.
Proof. intros i s. split; [reflexivity|]. intros. apply written_nil. reflexivity. Qed.
Lemma only_trans : forall i a b c, only i a b -> only i b c -> only i a c.
Proof. intros i a b c [V1 W1] [V2 W2]. split; [etransitivity; eauto|]. intros j N. change (@nil bytes) with (@nil bytes ++ []). eapply written_app; [apply W1|apply W2]; auto. Qed.
Definition here (i : connid) (h : handle) (s : state) : Prop := tree s /\ server_settled s /\ exists c, assoc h (s_heap s) = Some c /\ cl_conn c = Some i /\ cl_type c <> T_SERVER.
Lemma here_view : forall i h s s', view s s' -> here i h s -> here i h s'.
Proof. intros i h s s' V (T & S & c & A & Q). split; [eapply view_tree; eauto|]. unfold server_settled. rewrite (v_heap _ _ V). split; auto. exists c. auto. Qed.
Definition pure (l : list marg) : Prop := forall s v s', mseq l s = Ok v s' -> s' = s.
Lemma pure_nil : pure [].
Proof. intros s v s' H. apply mseq_nil_ok in H. tauto. Qed.
Lemma pure_cons : forall (a : marg) l, (forall s v s', a s = Ok v s' -> s' = s) -> pure l -> pure (a :: l).
Proof. intros a l K P s v s' H. apply mseq_cons_ok in H. destruct H as (x & s1 & t & H1 & H & ->). apply K in H1. subst s1. eauto. Qed.
Lemma pure_S : forall x l, pure l -> pure (aS x :: l).
Proof. intros x l. apply pure_cons. intros s v s' H. apply aS_ok in H. tauto. Qed.
Lemma pure_ID : forall h l, pure l -> pure (aID h :: l).
Proof. intros h l. apply pure_cons. intros s v s' H. apply aID_ok in H. tauto. Qed.
Lemma pure_Chan : forall ch l, pure l -> pure (aChan ch :: l).
Proof. intros ch l. apply pure_cons. intros s v s' H. apply aChan_ok in H. tauto. Qed.
Lemma pure_D : forall x l, pure l -> pure (aD x :: l).
Proof. intros x l. apply pure_cons. intros s v s' H. apply ret_ok in H. tauto. Qed.
Lemma pure_C : forall x l, pure l -> pure (aC x :: l).
Proof. intros x l. apply pure_cons. intros s v s' H. apply ret_ok in H. tauto. Qed.
Ltac pure := repeat first [apply pure_S|apply pure_ID|apply pure_Chan|apply pure_D|apply pure_C|apply pure_nil].
Lemma write_only : forall i h f l s b s', here i h s -> pure l -> IRC_WriteStrClient h f l s = Ok b s' -> only i s s'.
Proof.
  intros i h f l s b s' (T & SS & c & A & CI & NS) P H. unfold IRC_WriteStrClient in H. destruct (WriteStrClientPrefix_ok _ _ _ _ _ _ _ H) as (vals & s1 & nh & c1 & i1 & p & s2 & M & N & A1 & C1 & G & [W1 W2 W3 W4]). apply P in M. subst s1.
  assert (nh = h) by (exact (local_hop _ _ _ _ _ T A CI N)). subst nh. rewrite A in A1. injection A1 as <-. rewrite CI in C1. injection C1 as <-. unfold Get_Prefix in G. bd G as t s3 G1. apply is_type_ok in G1. destruct G1 as (-> & c2 & A2 & ->). rewrite A in A2. injection A2 as <-.
  assert (s2 = s). { destruct (ctype_eqb (cl_type c) T_SERVER) eqn:E; [apply ctype_eqb_eq in E; contradiction|]. destruct (tr_me _ T) as (me & AM & _). assert (SM : settled me) by (apply SS; rewrite lookup_assoc; exact AM). apply (Mask_settled _ _ _ _ _ AM SM G). }
  subst s2. split; auto. intros j NE. destruct b; [|apply written_nil; exact W4]. pose proof (written_one _ _ _ _ W4 j) as Q. destruct (Nat.eqb_spec i j); [congruence|exact Q].
Qed.
Lemma mfold_only : forall i h {A B} (f : B -> A -> M B), (forall acc x t r t', here i h t -> f acc x t = Ok r t' -> only i t t') -> forall l b s r s', here i h s -> mfold f l b s = Ok r s' -> only i s s'.
Proof.
  intros i h A0 B0 f K. induction l as [|x l IH]; intros b s r s' HH H; cbn [mfold] in H; [apply ret_ok in H; destruct H as [_ ->]; apply only_refl|]. bd H as b1 s1 H1. apply K in H1; auto. eapply only_trans; [exact H1|]. eapply IH; [eapply here_view; [apply H1|exact HH]|exact H].
Qed.
Lemma names_only : forall i h ch s b s', here i h s -> IRC_Send_NAMES h ch s = Ok b s' -> only i s s'.
Proof.
  intros i h ch s b s' HH H. unfold IRC_Send_NAMES in H. bd H as im s1 H1. apply IsMemberOf_on in H1. destruct H1 as [-> _]. bd H as mp s1 H1. same H1. bd H as se s1 H1. same H1.
  destruct (_ && _) in H; [apply ret_ok in H; destruct H as [_ ->]; apply only_refl|]. destruct (_ && _) in H; [apply ret_ok in H; destruct H as [_ ->]; apply only_refl|]. cbv zeta in H.
  assert (ST : forall sym x y z, line RPL_NAMREPLY_MSG [aID h; aC sym; aChan ch] x = Ok y z -> z = x). { intros sym x y z K. unfold line in K. apply vsn_ok in K. destruct K as (v & K & _). eapply (pure_ID h _ (pure_C sym _ (pure_Chan ch _ pure_nil))); eauto. }
  bd H as s0 s1 H1. apply ST in H1. subst s1. bd H as l s1 H1. unfold Members in H1. rdgets H1. bd H as r s1 H1.
  assert (Q : only i s s1).
  { clear H. refine (mfold_only i h _ _ _ _ _ _ _ HH H1). clear - ST. intros acc x t r t' HT H. destruct acc as [str|]; [|apply ret_ok in H; destruct H as [_ ->]; apply only_refl].
    bd H as inv s1 H1. same H1. destruct (_ || _) in H; [|apply ret_ok in H; destruct H as [_ ->]; apply only_refl]. bd H as md s1 H1. same H1. bd H as st s1 H1. same H1. bd H as id s1 H1. same H1.
    destruct (_ <? _) in H; [|apply ret_ok in H; destruct H as [_ ->]; apply only_refl]. bd H as ok s1 H1. assert (Q : only i t s1) by (eapply write_only; [exact HT| |exact H1]; pure). destruct (negb ok); [apply ret_ok in H; destruct H as [_ ->]; auto|]. bd H as st2 s2 H2. apply ST in H2. subst s2. apply ret_ok in H. destruct H as [_ ->]. exact Q. }
  destruct r as [str|]; [|apply ret_ok in H; destruct H as [_ ->]; auto]. destruct (no_colon_end str); [|apply ret_ok in H; destruct H as [_ ->]; auto]. eapply only_trans; [exact Q|]. eapply write_only; [eapply here_view; [apply Q|exact HH]| |exact H]. pure.
Qed.
Lemma seq_only : forall i h (a b : M bool) s r s', here i h s -> (forall x y z, here i h x -> a x = Ok y z -> only i x z) -> (forall x y z, here i h x -> b x = Ok y z -> only i x z) -> (a >>> b) s = Ok r s' -> only i s s'.
Proof.
  intros i h a b s r s' HH K1 K2 H. apply and_then_ok in H. destruct H as (x & s1 & H1 & [[_ H]|(_ & -> & _)]); [|eapply K1; eauto]. apply K1 in H1; auto. eapply only_trans; [exact H1|]. eapply K2; [eapply here_view; [apply H1|exact HH]|exact H].
Qed.
Lemma info_only : forall i h ch s b s', here i h s -> IRC_Send_Channel_Info h ch s = Ok b s' -> only i s s'.
Proof.
  intros i h ch s b s' HH H. unfold IRC_Send_Channel_Info in H. bd H as c s1 H1. apply chan_ok in H1. destruct H1 as [_ ->].
  assert (W : forall f l x y z, pure l -> here i h x -> IRC_WriteStrClient h f l x = Ok y z -> only i x z) by (intros; eapply write_only; eauto).
  revert H. repeat match goal with |- (_ >>> _) _ = _ -> _ => apply seq_only with (h := h); [exact HH| |] end; intros x y z HX H.
  - destruct (negb _); cbn [whenB] in H; [|apply ret_ok in H; destruct H as [_ ->]; apply only_refl]. revert H. apply seq_only with (h := h); [exact HX| |]; intros x1 y1 z1 HX1 H; eapply W; eauto; pure.
  - revert H. apply seq_only with (h := h); [exact HX| |]; intros x1 y1 z1 HX1 H; [eapply names_only; eauto|eapply W; eauto; pure].
Qed.
(** ** the command *)
Lemma behind_remote : forall s h u c d, tree s -> assoc h (s_heap s) = Some c -> assoc u (s_heap s) = Some d -> cl_type c = T_SERVER -> cl_type d = T_USER -> next_hop s u h -> cl_conn d = None.
Proof. intros s h u c d T AH AU TS TD NX. destruct (cl_conn d) as [jd|] eqn:CD; auto. assert (h = u) by (exact (local_hop s u d jd h T AU CD NX)). subst. rewrite AH in AU. injection AU as <-. congruence. Qed.
Theorem join_told : forall s i h c text a rest name u d ch ms b s', live s -> undisturbed s -> server_settled s -> client_of s i h c -> acts s h c text "JOIN" (a :: rest) u d -> nick_fits d -> settled d ->
  List.length rest <= 1 -> join_arg c a name -> ~ In ","%char a -> ~ In NUL a -> a <> B "0" -> Parse_Request i text s = Ok b s' -> ~ is_on s u ch -> modes_on s' u ch ms ->
  forall j, is_open s j = true ->
  (forall x, link s j x -> written s s' j (if (i =? j) || Ascii.eqb (hd0 name) "&" then [] else map (relayed d) (join_server (old_peer s' j) name (told ms) (cl_id d)))) /\
  (forall x, local_on s j ch x -> written s s' j (map (line_from s d x) (join_user name (told ms) (cl_id d)))) /\
  (cl_type c = T_USER -> i = j -> exists more, written s s' j (line_from s d d (B "JOIN :" ++ name) :: more)) /\
  ((forall x, ~ link s j x) -> (forall x, ~ local_on s j ch x) -> i <> j -> written s s' j []).
Proof.
  intros s i h c text a rest name u d ch ms b s' L U SS C AC NF S LR JA NC0 NN NZ H NO MO. destruct (actor _ _ _ _ _ _ _ _ _ L U C AC NF) as (T & KY & NC & AH & CI & AU & TD & F & NU & NX).
  assert (TY : cl_type c = T_USER \/ cl_type c = T_SERVER) by (destruct AC as [(X & _)|(X & _)]; auto).
  assert (ACT : acting h u c d) by (destruct AC as [(X1 & _ & X2 & X3)|(X & _)]; [left|right]; auto).
  eapply run_as in H; [|exact L|exact C|exact AC|exact NF|reflexivity|destruct TY as [-> | ->]; reflexivity|cbn; lia|intros m E; cbn in E; injection E as <-; cbn [List.length]; lia].
  destruct H as (req & s1 & V & O1 & SN & EA & H & Q). change (IRC_JOIN h req s1 = Ok b s') in H. pose proof (acts_req _ _ _ _ _ _ _ V Q) as Q1.
  assert (AH1 : assoc h (s_heap s1) = Some c) by (rewrite (v_heap _ _ V); exact AH). assert (AU1 : assoc u (s_heap s1) = Some d) by (rewrite (v_heap _ _ V); exact AU).
  unfold IRC_JOIN in H. eapply sender_as in H; [|exact AH1|exact Q1]. cbv beta zeta in H. assert (A0 : arg req 0 = a) by (unfold arg; rewrite EA; reflexivity). rewrite A0 in H.
  assert (BZ : beq a (B "0") = false) by (destruct (beq a (B "0")) eqn:E; auto; apply beq_eq in E; contradiction). rewrite BZ, andb_false_r in H.
  assert (CON : s_members s' = s_members s1 -> False). { intro E. apply NO. destruct MO as (m & M1 & M2 & M3 & _). exists m. rewrite E, (v_members _ _ V) in M1. auto. }
  assert (NE0 : a <> []). { intros ->. cbn [strtok strtok_aux rev] in H. change (strtok "," []) with (@nil bytes) in H. cbv iota in H. destruct (CON ltac:(apply (wr_same s1 s'); xlast H)). }
  rewrite (strtok_one _ _ NC0 NE0) in H. set (keys := if 1 <? argc req then strtok "," (arg req 1) else []) in H. cbn [join_loop] in H. bd H as x s2 H2. assert (s2 = s') by (destruct x; apply ret_ok in H; destruct H as [_ ->]; auto). subst s2. clear H. rename H2 into H.
  unfold join_one in H. bd H as srv s2 H2. apply is_type_ok in H2. destruct H2 as (-> & c1 & A1 & ->). rewrite AH1 in A1. injection A1 as <-.
  assert (FL : exists flags, incl (match flags with Some t => t | None => [] end) a /\ (if ctype_eqb (cl_type c) T_SERVER then match strchr BEL a with Some (a0, r) => (a0, Some (tl r)) | None => (a, None) end else (a, None)) = (name, flags) /\ ~ In NUL name).
  { destruct JA as [[TU ->]|(TS & NB & [-> |(fl & ->)])].
    - rewrite TU. exists None. split; [intros z []|auto].
    - rewrite TS. change (ctype_eqb T_SERVER T_SERVER) with true. cbv iota. change bell with BEL in NB. rewrite (strchr_none _ _ NB). exists None. split; [intros z []|auto].
    - rewrite TS. change (ctype_eqb T_SERVER T_SERVER) with true. cbv iota. change bell with BEL. rewrite (strchr_first _ _ _ NB). exists (Some fl). cbn [tl]. split; [intros z Z; apply in_app_iff; right; right; exact Z|]. split; auto. intro X. apply NN. apply in_app_iff. auto. }
  destruct FL as (flags & IF & E & NNm). rewrite E in H. clear E. cbv beta iota in H.
  bd H as o s2 H2. pose proof H2 as SE. assert (s2 = s1) by (unfold Channel_Search, gets in H2; injection H2 as _ <-; reflexivity). subst s2. clear H2. bd H as r s2 H2. destruct (join_check_mild _ _ _ _ _ _ _ _ _ _ _ AH1 AU1 F S ACT H2) as [M2 MI]. clear H2.
  destruct r as [y|f]; [apply ret_ok in H; destruct H as [_ ->]; destruct (CON M2)|]. destruct (MI f eq_refl) as [MI2 EF]. clear MI. bd H as ok s3 H3.
  pose proof (view_keyed _ _ V KY) as KY1.
  match type of H with _ s3 = Ok ?x _ => destruct (join_seats u d name f o s1 s2 ok s3 (fun ch => join_forward h u ch name ;;; ty <- Client_Type h ;;
        if ctype_eqb ty T_USER then ok <- ((IRC_WriteStrClientPrefix h u "JOIN :%s" [aS name]) >>> (IRC_Send_Channel_Info h ch)) ;; ret (if ok then None else Some CONNECTED) else ret None) x s' (ky_chans _ KY1) AU1 F MI2 SE H3 H) as [E|(VC & ch0 & ms0 & s4 & [J1 J2 (k & AK & SNk)] & IM & HK)] end; [destruct (CON E)|]. clear H H3 SE MI2 M2.
  cbv beta in HK. assert (W4 : wr s4 s') by xlast HK.
  assert (SQ : seat s s4) by (transitivity s1; [apply view_seat; auto|exact J1]). rewrite (v_members _ _ V) in J2.
  assert (EE : ch0 = ch /\ ms0 = ms). { destruct MO as (m & I1 & I2 & I3 & I4). rewrite (w_members _ _ (wr_same _ _ W4)), J2 in I1. destruct I1 as [<- |I1]; [auto|]. destruct NO. exists m. auto. } destruct EE as [-> ->].
  assert (NM : ~ In NUL ms). { intro X. apply IM in X. destruct X as [X|X]; [discriminate X|]. destruct EF as [-> | ->]; [apply NN, IF, X|]. destruct X as [X|[]]. discriminate X. }
  assert (T4 : tree s4) by (exact (seat_tree _ _ SQ T)). assert (NC4 : NoDup (s_clients s4)) by (rewrite (se_clients _ _ SQ); exact NC). assert (NK4 : NoDup (map fst (s_conns s4))) by (rewrite (seat_keys _ _ SQ); apply KY).
  assert (AU4 : assoc u (s_heap s4) = Some d) by (rewrite (se_heap _ _ SQ); exact AU). assert (AH4 : assoc h (s_heap s4) = Some c) by (rewrite (se_heap _ _ SQ); exact AH).
  bd HK as v s5 H5. destruct (forward_ok _ _ _ _ _ _ _ _ _ _ T4 NC4 NK4 AU4 S F (proj1 NF) (ex_intro _ _ J2) AK SNk VC NNm NM H5) as [V5 R]. clear H5.
  bd HK as ty s6 H6. apply Client_Type_ok in H6. destruct H6 as (-> & c6 & A6 & ->). assert (A6' : Some c6 = Some c) by (rewrite <- A6, <- AH4, (v_heap _ _ V5); reflexivity). injection A6' as ->.
  assert (LF : forall y z t, line_from y d z t = line_from s d z t -> True) by auto. clear LF.
  assert (SH4 : forall x, shown_mask s4 x = shown_mask s x). { intro xx. unfold shown_mask, shown_host, cloak_name. rewrite (se_conf _ _ SQ), (se_heap _ _ SQ). reflexivity. }
  assert (LF : forall x t, line_from s4 d x t = line_from s d x t) by (intros; unfold line_from; rewrite SH4; reflexivity).
  assert (LASTP : (cl_type c = T_USER -> is_open s i = true -> exists more, written s5 s' i (line_from s d d (B "JOIN :" ++ name) :: more)) /\ (forall j, i <> j -> written s5 s' j []) /\ (cl_type c = T_SERVER -> s' = s5)).
  { destruct TY as [TU|TS].
    - rewrite TU in HK. change (ctype_eqb T_USER T_USER) with true in HK. cbv iota in HK. assert (u = h /\ d = c) by (destruct ACT as [(_ & X1 & X2)|X]; [auto|congruence]). destruct H as [-> ->]. bd HK as ok6 s6 H6. apply ret_ok in HK. destruct HK as [_ ->].
      assert (VS5 : view s4 s5) by exact V5. assert (T5 : tree s5) by (exact (view_tree _ _ V5 T4)). assert (AH5 : assoc h (s_heap s5) = Some c) by (rewrite (v_heap _ _ V5); exact AH4).
      apply and_then_ok in H6. destruct H6 as (y & s7 & H7 & H6). destruct (prefix_ok _ _ _ _ _ _ _ _ _ AH5 S F (proj1 NF) (prints_S name _ s5 _ (prints_nil s5)) H7) as (nx & e & j & N1 & N2 & N3 & V7 & EY & O7). assert (nx = h) by (exact (local_hop _ _ _ _ _ T5 AH5 CI N1)). subst nx. rewrite AH5 in N2. injection N2 as <-. rewrite CI in N3. injection N3 as <-.
      change (fmt (B "JOIN :%s") [FS name]) with (B "JOIN :" ++ name ++ []) in O7. rewrite app_nil_r in O7. unfold line_from in O7. rewrite (view_shown _ _ _ V5), SH4 in O7. fold (line_from s c c (B "JOIN :" ++ name)) in O7.
      assert (OI : is_open s5 i = is_open s i) by (rewrite (view_open _ _ _ V5); apply (seat_open _ _ _ SQ)). rewrite OI in EY.
      assert (HE : here i h s7). { eapply here_view; [exact V7|]. split; auto. split; [unfold server_settled; rewrite (v_heap _ _ V5), (se_heap _ _ SQ); exact SS|]. exists c. split; auto. split; auto. congruence. }
      assert (OL : only i s7 s6) by (destruct H6 as [[_ H6]|(_ & -> & _)]; [eapply info_only; eauto|apply only_refl]). destruct OL as [_ OL]. split; [|split; [|congruence]].
      + intros _ OP. rewrite OP in EY. subst y. pose proof (written_one _ _ _ _ O7 i) as Q7. rewrite Nat.eqb_refl in Q7. assert (WX : exists more, written s7 s6 i more). { destruct (wr_out s7 s6) as (new & EN); [destruct H6 as [[_ H6]|(_ & -> & _)]; [xlast H6|reflexivity]|]. eexists. exists new. split; [exact EN|reflexivity]. }
        destruct WX as [more WX]. exists more. match goal with |- written _ _ _ (?x :: more) => change (x :: more) with ([x] ++ more) end. eapply written_app; eauto.
      + intros j NE. change (@nil bytes) with (@nil bytes ++ []). eapply written_app; [|apply OL; auto]. destruct y; [|apply written_nil; exact O7]. pose proof (written_one _ _ _ _ O7 j) as Q7. destruct (Nat.eqb_spec i j); [congruence|exact Q7].
    - rewrite TS in HK. change (ctype_eqb T_SERVER T_USER) with false in HK. cbv iota in HK. apply ret_ok in HK. destruct HK as [_ ->]. split; [congruence|]. split; auto. intros. apply written_nil. reflexivity. }
  clear HK. destruct LASTP as (P1 & P2 & P3). try (rename x into xres). intros j OP. assert (OP4 : is_open s4 j = true) by (rewrite (seat_open _ _ _ SQ); exact OP). destruct (R j OP4) as (R1 & R2 & R3). clear R. rewrite <- (wr_old _ _ j W4) in R1.
  assert (K : forall l, written s4 s5 j l -> written s s5 j l) by (intros l W; change l with ([] ++ l); eapply written_app; [apply written_nil; apply (se_out _ _ SQ)|exact W]).
  assert (K2 : forall l, i <> j \/ s' = s5 -> written s4 s5 j l -> written s s' j l) by (intros l D W; destruct D as [D | ->]; [rewrite <- (app_nil_r l); eapply written_app; [apply K; exact W|apply P2; exact D]|apply K; exact W]).
  assert (IJ : forall x y, assoc y (s_heap s) = Some x -> cl_conn x = Some i -> y = h /\ x = c) by (intros x y K1 K3; destruct (conn_client _ _ _ _ _ _ T K1 AH K3 CI); auto).
  assert (HI : forall y, hit s4 (Some h) None y j <-> hit s (Some h) None y j) by (intro; unfold hit; rewrite (se_heap _ _ SQ); reflexivity).
  assert (ON4 : forall g, is_on s4 g ch <-> g = u \/ is_on s g ch). { intro g. unfold is_on. rewrite J2. split; [intros (m & [<- |I] & E1 & E2); [left; auto|right; exists m; auto]|intros [-> |(m & I & E)]; [exists (mkMember u ch ms); split; [left; auto|auto]|exists m; split; [right|]; auto]]. }
  assert (UC : u <> h -> cl_conn d = None). { intro X. destruct ACT as [(_ & X1 & _)|TS]; [congruence|]. exact (behind_remote _ _ _ _ _ T AH AU TS TD NX). }
  rewrite (se_heap _ _ SQ) in R2, R3.
  split; [|split; [|split]].
  - intros x (y & [_ K1] & K3 & K4). rewrite lookup_assoc in K1. destruct (Nat.eqb_spec i j) as [<- |NE]; cbn [orb].
    + destruct (IJ _ _ K1 K4) as [-> ->]. apply K2; [right; apply P3; exact K3|]. apply R3; [intros z Z; apply HI in Z; destruct Z as (w & Z1 & _ & Z3 & Z4 & _); destruct (IJ _ _ Z1 Z3) as [-> _]; auto|].
      intros e g _ _ X1 X2 X3. destruct (IJ _ _ X1 X2) as [_ ->]. congruence.
    + apply K2; [left; exact NE|]. apply (R1 y), HI. exists x. split; auto. split; auto. split; auto. split; auto. intro X. injection X as <-. rewrite AH in K1. injection K1 as <-. congruence.
  - intros x (y & I & K1 & K3 & K4). rewrite lookup_assoc in K1. assert (NH : y <> h). { intros ->. rewrite AH in K1. injection K1 as <-. destruct TY as [TU|TS]; [|contradiction]. destruct ACT as [(_ & -> & _)|X]; [contradiction|congruence]. }
    assert (NIJ : i <> j) by (intros <-; destruct (IJ _ _ K1 K3); auto). apply K2; [left; exact NIJ|]. rewrite (map_ext _ _ (fun t => eq_sym (LF x t))). apply (R2 x y); auto. apply ON4. auto.
  - intros TU <-. destruct (P1 TU OP) as [more P]. exists more. match goal with |- written _ _ _ ?l => change l with ([] ++ l) end. eapply written_app; [|exact P]. apply K, R3.
    + intros z Z. apply HI in Z. destruct Z as (w & Z1 & _ & Z3 & Z4 & _). destruct (IJ _ _ Z1 Z3) as [-> _]. auto.
    + intros e g _ X0 X1 X2 X3. destruct (IJ _ _ X1 X2) as [-> _]. auto.
  - intros X1 X2 NE. apply K2; [left; exact NE|]. apply R3.
    + intros y HY. apply HI in HY. destruct HY as (x & K1 & K3 & K4 & _). apply (X1 x). exists y. split; auto. split; [eapply tr_listed; eauto|rewrite lookup_assoc; exact K1].
    + intros x y I NH K1 K3 K4. apply ON4 in I. destruct I as [-> |I]; [assert (EQ : Some x = Some d) by (rewrite <- K1, <- AU; reflexivity); injection EQ as ->; rewrite (UC NH) in K3; discriminate K3|]. apply (X2 x). exists y. rewrite lookup_assoc. auto.
Qed.
Lemma join_link : forall s i h c text a rest name u d ch ms b s', live s -> undisturbed s -> server_settled s -> client_of s i h c -> acts s h c text "JOIN" (a :: rest) u d -> nick_fits d -> settled d ->
  List.length rest <= 1 -> join_arg c a name -> ~ In ","%char a -> ~ In NUL a -> a <> B "0" -> Parse_Request i text s = Ok b s' -> ~ is_on s u ch -> modes_on s' u ch ms ->
  (~ local_name name -> forall j x, link s j x -> is_open s j = true -> written s s' j (if (i =? j)%nat then [] else map (relayed d) (join_server (old_peer s' j) name (told ms) (cl_id d)))) /\
  (local_name name -> to_no_server s s') /\
  (forall j x, local_on s j ch x -> is_open s j = true -> written s s' j (map (line_from s d x) (join_user name (told ms) (cl_id d)))) /\
  (cl_type c = T_USER -> is_open s i = true -> exists more, written s s' i (line_from s d d (B "JOIN :" ++ name) :: more)) /\
  (forall j, is_open s j = true -> (forall x, ~ link s j x) -> (forall x, ~ local_on s j ch x) -> i <> j -> written s s' j []).
Proof.
  intros s i h c text a rest name u d ch ms b s' L U SS C AC NF S LR JA NC0 NN NZ H NO MO. pose proof (join_told _ _ _ _ _ _ _ _ _ _ _ _ _ _ L U SS C AC NF S LR JA NC0 NN NZ H NO MO) as R.
  split; [|split; [|split; [|split]]].
  - intros NL j x LK OP. destruct (R j OP) as (R1 & _). specialize (R1 x LK). rewrite (nonlocal_hd _ NL), orb_false_r in R1. exact R1.
  - intros NL j x LK OP. destruct (R j OP) as (R1 & _). specialize (R1 x LK). apply local_hd in NL. rewrite NL, orb_true_r in R1. exact R1.
  - intros j x LO OP. apply (R j OP). exact LO.
  - intros TU OP. destruct (R i OP) as (_ & _ & R1 & _). auto.
  - intros j OP X1 X2 NE. destruct (R j OP) as (_ & _ & _ & R1). auto.
Qed.
Lemma join_local : forall s i h c text a rest name u d ch ms b s', live s -> undisturbed s -> server_settled s -> client_of s i h c -> acts s h c text "JOIN" (a :: rest) u d -> nick_fits d -> settled d ->
  List.length rest <= 1 -> join_arg c a name -> ~ In ","%char a -> ~ In NUL a -> a <> B "0" -> Parse_Request i text s = Ok b s' -> ~ is_on s u ch -> modes_on s' u ch ms -> local_name name -> to_no_server s s'.
Proof. intros s i h c text a rest name u d ch ms b s' L U SS C AC NF S LR JA NC0 NN NZ H NO MO. apply (join_link _ _ _ _ _ _ _ _ _ _ _ _ _ _ L U SS C AC NF S LR JA NC0 NN NZ H NO MO). Qed.
