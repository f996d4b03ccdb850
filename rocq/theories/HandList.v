(** What is told about a MODE command for one of the lists of a channel, its key and its limit (C28, C31). *)
From Coq Require Import List Ascii String ZArith NArith Bool Lia Arith.
From Coq Require Import Relations RelationClasses.
From Verif Require Import Bytes Strl Match Lists ListsProofs Hash ParseReq State Messages Monad Core Write Info Chan Mode Msg Login Oper Server Dispatch Conn.
From Verif Require Import Rel RelWrite RelInfo RelBase RelChan RelSrv RelInit RelKey RelCmd RelComp WF RelGone Frame Tree Inv1 Inv2 Inv3 Inv4 Live Spec Observ Unch HandOper HandPrefix HandLine Frames Attrib HandGain HandUser HandChan HandJoin HandKick Output HandDo HandSend SpecLink HandCast SpecNick HandNick HandSync SpecJoin HandJoined SpecMode HandTell.
Import ListNotations.
Local Open Scope m_scope.

Lemma prints_C : forall x l s vals, prints l s vals -> prints (aC x :: l) s (FC x :: vals).
Proof. intros x l s vals P v s' H. apply mseq_cons_ok in H. destruct H as (a & s1 & t & H1 & H & ->). apply ret_ok in H1. destruct H1 as [-> ->]. destruct (P _ _ H) as [-> ->]. auto. Qed.
Lemma fmt_list : forall n x y m, fmt (B "MODE %s %c%c %s") [FS n; FC x; FC y; FS m] = B "MODE " ++ n ++ " "%char :: x :: y :: " "%char :: m.
Proof. intros n x y m. change (B "MODE " ++ n ++ " "%char :: x :: y :: " "%char :: m ++ [] = B "MODE " ++ n ++ " "%char :: x :: y :: " "%char :: m). rewrite app_nil_r. reflexivity. Qed.
Lemma same_lower : forall a b, same_name a b <-> lower a = lower b.
Proof. intros a b. rewrite same_name_iff. apply caseeq_iff. Qed.
Lemma has_mask_entry : forall l m, has_mask l m <-> entry l m <> None.
Proof.
  intros l m. split.
  - intros (e & I & S) X. apply entry_None in X. apply X, in_map_iff. exists e. split; [apply same_lower; exact S|exact I].
  - intro X. destruct (entry l m) as [e|] eqn:E; [|congruence]. apply entry_In in E. destruct E as [E1 E2]. exists e. split; [exact E1|apply same_lower; exact E2].
Qed.
Lemma added : forall l m t w, List.length m < MASK_LEN -> has_mask (Lists_Add l m t w false) m /\ forall m', ~ same_name m' m -> (has_mask (Lists_Add l m t w false) m' <-> has_mask l m').
Proof.
  intros l m t w LM. split.
  - apply has_mask_entry. rewrite Lists_Add_entry by auto. discriminate.
  - intros m' N. rewrite !has_mask_entry, Lists_Add_other; [reflexivity|auto|]. destruct (caseeq m m') eqn:E; auto. apply caseeq_iff in E. destruct N. apply same_lower. symmetry. exact E.
Qed.
Lemma removed : forall l m, ~ has_mask (Lists_Del l m) m /\ forall m', ~ same_name m' m -> (has_mask (Lists_Del l m) m' <-> has_mask l m').
Proof.
  intros l m. split.
  - rewrite has_mask_entry, Lists_Del_entry, caseeq_refl. auto.
  - intros m' N. rewrite !has_mask_entry, Lists_Del_entry. destruct (caseeq m m') eqn:E; [|reflexivity]. apply caseeq_iff in E. destruct N. apply same_lower. symmetry. exact E.
Qed.
Lemma list_of_at : forall x k, In x (B "beI") -> list_of x k = list_at x k.
Proof. intros x k I. cbn in I. destruct I as [<- |[<- |[<- |[]]]]; reflexivity. Qed.
(** the list is changed and everybody told, or it is as wished already *)
Lemma list_changed : forall x u h c ch (add : bool) p s b s1 k, In x (B "beI") -> assoc ch (s_chans s) = Some k -> assoc h (s_heap s) = Some c -> (add = true -> cl_type c = T_USER -> entries k < 50) ->
  (if add then Add_To_List x u h ch p else Del_From_List x u h ch p) s = Ok b s1 ->
  let m := Lists_MakeMask p MASK_LEN in
  ((has_mask (list_at x k) m <-> add = true) /\ s1 = s /\ b = CONNECTED) \/
  (~ (has_mask (list_at x k) m <-> add = true) /\ exists s2 k', seat s s2 /\ s_members s2 = s_members s /\ assoc ch (s_chans s2) = Some k' /\ ch_name k' = ch_name k /\
    (has_mask (list_at x k') m <-> add = true) /\ (forall m', ~ same_name m' m -> (has_mask (list_at x k') m' <-> has_mask (list_at x k) m')) /\ (forall y, In y (B "beI") -> y <> x -> list_at y k' = list_at y k) /\ Send_ListChange add x u h ch m s2 = Ok b s1).
Proof.
  intros x u h c ch add p s b s1 k I AK AH EN H m. assert (DU : is_some (Lists_CheckDupeMask (list_of x k) m) = true <-> has_mask (list_at x k) m).
  { rewrite list_of_at by auto. rewrite has_mask_entry. unfold Lists_CheckDupeMask, entry. destruct (find _ _); cbn; split; congruence. }
  assert (UP : forall f (u0 : unit) t, upd_chan ch f s = Ok u0 t -> ch_name (f k) = ch_name k -> seat s t /\ s_members t = s_members s /\ assoc ch (s_chans t) = Some (f k)).
  { intros f u0 t X _. apply upd_chan_ok in X. destruct X as (k1 & A1 & ->). split; [split; reflexivity|]. split; [reflexivity|]. change (s_chans (set_s_chans (aupd ch f (s_chans s)) s)) with (aupd ch f (s_chans s)). rewrite assoc_aupd, Nat.eqb_refl, AK. reflexivity. }
  pose proof (MakeMask_length p) as LM. fold m in LM.
  destruct add.
  - unfold Add_To_List in H. bd H as k1 s2 H1. apply chan_ok in H1. destruct H1 as [A1 ->]. rewrite AK in A1. injection A1 as <-. cbv zeta in H. fold m in H. destruct (is_some (Lists_CheckDupeMask (list_of x k) m)) eqn:E.
    { left. apply ret_ok in H. destruct H as [-> ->]. split; [|auto]. split; auto. intros _. apply DU. reflexivity. }
    right. assert (NM : ~ has_mask (list_at x k) m) by (intro X; apply DU in X; congruence). split; [intro X; apply NM, X; reflexivity|].
    bd H as usr s2 H1. apply is_type_ok in H1. destruct H1 as (-> & c1 & A1 & ->). rewrite AH in A1. injection A1 as <-.
    assert (LE : ctype_eqb (cl_type c) T_USER && (MAX_HNDL_CHANNEL_LISTS <=? Lists_Count (ch_invites k) + Lists_Count (ch_excepts k) + Lists_Count (ch_bans k)) = false).
    { destruct (ctype_eqb (cl_type c) T_USER) eqn:TU; [|reflexivity]. apply ctype_eqb_eq in TU. specialize (EN eq_refl TU). apply Nat.leb_gt. unfold Lists_Count, MAX_HNDL_CHANNEL_LISTS, entries in *. lia. }
    rewrite LE in H. clear LE. bd H as id s2 H1. apply Client_ID_ok in H1. destruct H1 as (-> & c1 & A1 & ->). bd H as v s2 H1. 
    assert (Q : exists f t, upd_chan ch f s = Ok v s2 /\ list_at x (f k) = Lists_Add (list_at x k) m t (Some (id_of c1)) false /\ ch_name (f k) = ch_name k /\ forall y, In y (B "beI") -> y <> x -> list_at y (f k) = list_at y k).
    { cbn in I. destruct I as [<- |[<- |[<- |[]]]]; cbv [Ascii.eqb] in H1.
      1: change (Channel_AddBan ch m (id_of c1) s = Ok v s2) in H1; unfold Channel_AddBan in H1.
      2: change (Channel_AddExcept ch m (id_of c1) s = Ok v s2) in H1; unfold Channel_AddExcept in H1.
      3: change (Channel_AddInvite ch m false (id_of c1) s = Ok v s2) in H1; unfold Channel_AddInvite in H1.
      all: bd H1 as t s3 H2; unfold now in H2; rdgets H2; do 2 eexists; (split; [exact H1|]); (split; [reflexivity|]); (split; [reflexivity|]); intros y IY NY; cbn in IY; destruct IY as [<- |[<- |[<- |[]]]]; try reflexivity; destruct (NY eq_refl). }
    destruct Q as (f & t & Q1 & Q2 & Q3 & Q4). destruct (UP _ _ _ Q1 Q3) as (U1 & U2 & U3). exists s2, (f k). split; auto. split; auto. split; auto. split; auto. rewrite Q2. destruct (added (list_at x k) m t (Some (id_of c1)) LM) as [D1 D2]. split; [tauto|]. auto.
  - unfold Del_From_List in H. bd H as k1 s2 H1. apply chan_ok in H1. destruct H1 as [A1 ->]. rewrite AK in A1. injection A1 as <-. cbv zeta in H. fold m in H. destruct (is_some (Lists_CheckDupeMask (list_of x k) m)) eqn:E; cbn [negb] in H.
    2: { left. apply ret_ok in H. destruct H as [-> ->]. split; [|auto]. split; [intro X; apply DU in X; congruence|discriminate]. }
    right. assert (NM : has_mask (list_at x k) m) by (apply DU; reflexivity). split; [intro X; apply X in NM; discriminate NM|]. bd H as v s2 H1.
    match type of H1 with upd_chan _ ?f _ = _ => assert (Q : list_at x (f k) = Lists_Del (list_at x k) m /\ ch_name (f k) = ch_name k /\ forall y, In y (B "beI") -> y <> x -> list_at y (f k) = list_at y k); [|destruct (UP _ _ _ H1 (proj1 (proj2 Q))) as (U1 & U2 & U3); exists s2, (f k)] end.
    { clear - I. cbn in I. destruct I as [<- |[<- |[<- |[]]]]; (split; [reflexivity|]); (split; [reflexivity|]); intros y IY NY; cbn in IY; destruct IY as [<- |[<- |[<- |[]]]]; try reflexivity; destruct (NY eq_refl). }
    destruct Q as (Q2 & Q3 & Q4). split; auto. split; auto. split; auto. split; auto. rewrite Q2. destruct (removed (list_at x k) m) as [D1 D2]. split; [split; [tauto|discriminate]|]. auto.
Qed.
(** everybody is told, by a client which may be of this server or behind the server [h] *)
Lemma change_told : forall s s4 i h c u d ch k (add : bool) x m b s', tree s -> keyed s -> NoDup (s_clients s) -> seat s s4 -> (forall g, is_on s4 g ch <-> is_on s g ch) ->
  assoc h (s_heap s) = Some c -> cl_conn c = Some i -> assoc u (s_heap s) = Some d -> fits d -> settled d -> cl_id d <> [] ->
  (cl_type c = T_USER /\ u = h /\ d = c \/ cl_type c = T_SERVER) -> assoc ch (s_chans s4) = Some k -> ~ local_name (ch_name k) ->
  Send_ListChange add x u h ch m s4 = Ok b s' ->
  announced s s' i c d ch (ch_name k) [list_text (ch_name k) add x m] /\ view s4 s'.
Proof.
  intros s s4 i h c u d ch k add x m b s' T KY NC SQ ON AH CI AU F S NI CS AK NL H. unfold Send_ListChange in H. cbv zeta in H.
  assert (PR : forall t, view s4 t -> prints [aChan ch; aC (sign add); aC x; aS m] t [FS (ch_name k); FC (sign add); FC x; FS m]) by (intros t V; apply prints_Chan; [rewrite (v_chans _ _ V); exact AK|apply prints_C, prints_C, prints_S, prints_nil]).
  bd H as usr s5 H1. apply is_type_ok in H1. destruct H1 as (-> & c1 & A1 & ->). rewrite (se_heap _ _ SQ), AH in A1. injection A1 as <-. bd H as ok s5 H1. bd H as v2 s6 H2. bd H as v3 s7 H3. apply ret_ok in H. destruct H as [_ ->].
  assert (R1 : exists v1 : bool, if ctype_eqb (cl_type c) T_USER then IRC_WriteStrClientPrefix h u "MODE %s %c%c %s" [aChan ch; aC (sign add); aC x; aS m] s4 = Ok v1 s5 else s5 = s4) by (destruct (ctype_eqb (cl_type c) T_USER); [exists ok; exact H1|exists true; apply ret_ok in H1; tauto]).
  destruct R1 as [v1 R1]. clear H1. assert (R2 : exists v, IRC_WriteStrServersPrefix (Some h) u "MODE %s %c%c %s" [aChan ch; aC (sign add); aC x; aS m] s5 = Ok v s6) by (exists v2; exact H2).
  destruct (tell _ _ _ _ _ _ _ _ _ _ _ true _ _ _ _ _ T KY NC SQ ON AH CI AU F S NI CS PR R1 R2 H3) as [V R]. split; [|exact V]. rewrite fmt_list in R. cbn [negb] in R.
  assert (E : B "MODE " ++ ch_name k ++ " "%char :: sign add :: x :: " "%char :: m = list_text (ch_name k) add x m) by (destruct add; reflexivity). rewrite E in R. clear E. cbn [map].
  split; [|split; [|split; [|split]]].
  - intros _ j y LK OP. destruct (R j OP) as (Q & _). specialize (Q y LK). rewrite orb_false_r in Q. exact Q.
  - intro LO. destruct (NL LO).
  - intros j y LO NEj OP. apply (R j OP); auto.
  - intros TU OP. destruct (R i OP) as (_ & _ & Q & _). rewrite OP in Q. auto.
  - intros j OP X1 X2 NEj. apply (R j OP); auto.
Qed.
Lemma unchanged : forall s s' i c d ch name, (forall j, written s s' j []) -> announced s s' i c d ch name [].
Proof. intros s s' i c d ch name W. split; [intros _ j x _ _; destruct (i =? j); apply W|]. split; [intros _ j x _ _; apply W|]. split; [intros j x _ _ _; apply W|]. split; [intros _ _; apply W|intros j _ _ _ _; apply W]. Qed.
Theorem mode_list : forall s i h c text name add x p u d ch k b s', live s -> undisturbed s -> client_of s i h c -> acts s h c text "MODE" [name; [sign_of add; x]; p] u d -> nick_fits d -> Spec.settled d ->
  name <> [] -> ~ In NUL name -> legal_chan name -> the_channel s name ch k -> (forall r, ch_name k <> "+"%char :: r) -> ~ local_name (ch_name k) -> In x (B "beI") ->
  (cl_type c = T_USER -> inside s u d ch /\ half_or_mighty s u d ch /\ entries k < 50) -> Parse_Request i text s = Ok b s' ->
  let m := Lists_MakeMask p MASK_LEN in
  (if add then has_mask (list_at x k) m else ~ has_mask (list_at x k) m) /\ announced s s' i c d ch (ch_name k) [] /\ exists_chan s' ch k \/
  (if add then ~ has_mask (list_at x k) m else has_mask (list_at x k) m) /\ announced s s' i c d ch (ch_name k) [list_text (ch_name k) add x m] /\
  exists k', exists_chan s' ch k' /\ (has_mask (list_at x k') m <-> add = true) /\ (forall m', ~ same_name m' m -> (has_mask (list_at x k') m' <-> has_mask (list_at x k) m')) /\ (forall y, In y (B "beI") -> y <> x -> list_at y k' = list_at y k).
Proof.
  intros s i h c text name add x p u d ch k b s' L U C AC NF S NE NN LC TC NP NLo IX PM H m. destruct (actor _ _ _ _ _ _ _ _ _ L U C AC NF) as (T & KY & NC & AH & CI & AU & TD & F & NU & NX).
  assert (TY : cl_type c = T_USER /\ u = h /\ d = c \/ cl_type c = T_SERVER) by (destruct AC as [(X & _ & X1 & X2)|(X & _)]; auto).
  assert (AK : assoc ch (s_chans s) = Some k) by (destruct TC as [E _]; unfold exists_chan in E; rewrite lookup_assoc in E; exact E).
  destruct (mode_runs _ _ _ _ _ _ _ _ _ _ _ _ _ L U C AC NF NE NN LC TC ltac:(discriminate) NP (fun X => proj1 (PM X)) H) as (req & s1 & ok & st & s2 & V & O1 & EA & H1 & H2). clear H. cbn [hd hd0] in H1.
  assert (ES : negb (Ascii.eqb (sign_of add) "-") = add /\ plusminus (sign_of add) = true /\ sign add = sign_of add) by (destruct add; repeat split). destruct ES as (ES1 & ES2 & ES3). cbv zeta in H1. rewrite ES1, ES2, ES3 in H1. cbn [negb] in H1. change (if 2 <? List.length [name; [sign_of add; x]; p] then 2%Z else (-1)%Z) with 2%Z in H1.
  pose proof (view_keyed _ _ V KY) as KY1. assert (AK1 : assoc ch (s_chans s1) = Some k) by (rewrite (v_chans _ _ V); exact AK). assert (AH1 : assoc h (s_heap s1) = Some c) by (rewrite (v_heap _ _ V); exact AH).
  assert (PX : plusminus x = false /\ x <> NUL) by (clear - IX; cbn in IX; repeat (destruct IX as [<- |IX]; [split; [reflexivity|discriminate]|]); destruct IX). destruct PX as [PX NX0].
  match type of H1 with context [modes_fuel ?l] => assert (NF0 : exists n, modes_fuel l = Datatypes.S (Datatypes.S n)) by (unfold modes_fuel; eexists; cbn [Nat.mul List.length Nat.add]; reflexivity); destruct NF0 as [n EN0]; rewrite EN0 in H1; clear EN0 end.
  cbn [chan_modes] in H1. bd H1 as nx s3 H3. unfold chan_advance in H3. cbn [cm_skip cm_pos cm_marg cm_aarg cm_args cm_set cm_modes cm_astr cm_count cm_halfop cm_op cm_admin cm_owner] in H3. bd H3 as pos s4 H4. apply ret_ok in H4. destruct H4 as [-> ->]. cbv zeta in H3. apply ret_ok in H3. destruct H3 as [-> ->].
  cbv beta iota zeta in H1. cbn [cm_pos hd0] in H1. rewrite PX in H1. unfold cm_argc in H1. cbn [cm_args cm_aarg List.length] in H1. change (Z.of_nat 3 <=? 2)%Z with false in H1. cbv iota in H1.
  bd H1 as st1 s3 H3. apply privs_ok in H3; auto. destruct H3 as (-> & (C1 & C2 & C3 & C4 & C5 & C6 & C7 & C8 & C9) & K). cbn [cm_args cm_pos cm_marg cm_aarg cm_set cm_skip cm_modes cm_astr cm_count] in C1, C2, C3, C4, C5, C6, C7, C8, C9.
  bd H1 as v s3 H3. unfold chan_letter in H3.
  assert (E : memb x (B "RsziVMmnNQt") = false /\ Ascii.eqb x "k" = false /\ Ascii.eqb x "l" = false /\ memb x (B "OP") = false /\ memb x (B "qaohv") = false /\ memb x (B "Ibe") = true) by (clear - IX; cbn in IX; repeat (destruct IX as [<- |IX]; [repeat split|]); destruct IX).
  destruct E as (E1 & E2 & E3 & E4 & E5 & E6). rewrite E1, E2, E3, E4, E5, E6 in H3. clear E1 E2 E3 E4 E5 E6. unfold letter_list in H3.
  bd H3 as lim s4 H4. unfold Mode_Limit_Reached in H4. bd H4 as ty s5 H5. apply Client_Type_ok in H5. destruct H5 as (-> & c1 & A1 & ->). rewrite AH1 in A1. injection A1 as <-. apply ret_ok in H4. destruct H4 as [-> ->]. rewrite C9 in H3. change (MAX_HNDL_MODES_ARG <=? 0)%Z with false in H3. rewrite andb_false_r in H3. cbv zeta in H3.
  change (cm_marg (inc_count st1)) with (cm_marg st1) in H3. change (cm_aarg (inc_count st1)) with (cm_aarg st1) in H3. change (cm_set (inc_count st1)) with (cm_set st1) in H3. rewrite C3, C4, C5 in H3. change (1 <? 2)%Z with true in H3. cbv iota in H3.
  match type of H3 with context [any_halfop ?o ?ma ?st] => assert (HA : any_halfop o ma st = true) end.
  { change (any_halfop (strchr0 "o" (cl_modes c) && cf_opercanmode (s_conf s)) (ctype_eqb (cl_type c) T_SERVER) st1 = true). eapply any_half_ok; [exact K|]. destruct TY as [(TU & -> & ->)|TS]; [|left; rewrite TS; reflexivity]. right. destruct (PM TU) as (_ & [[M1 M2]|P] & _).
    - left. rewrite M1, andb_true_r. apply strchr0_iff; [discriminate|exact M2].
    - right. unfold half_op, has_priv in *. rewrite (v_members _ _ V). exact P. }
  rewrite HA in H3. clear HA. bd H3 as okl s4 H4. apply ret_ok in H3. destruct H3 as [-> ->]. assert (EP : cm_arg (inc_count st1) 2 = p) by (unfold cm_arg, inc_count; cbn [cm_args]; rewrite C1; reflexivity). rewrite EP in H4. clear EP.
  eapply list_changed in H4; [|exact IX|exact AK1|exact AH1|intros _ TU; apply (PM TU)]. fold m in H4.
  assert (END : s2 = s4 /\ cm_modes st = [sign_of add]).
  { cbv beta iota in H1. destruct okl; cbn [negb] in H1.
    - cbn [chan_modes] in H1. bd H1 as nx s5 H3. unfold chan_advance in H3. cbn [consume inc_count cm_skip cm_pos cm_marg cm_aarg cm_args] in H3. rewrite C6, C2, C3, C4, C1 in H3. unfold cm_argc in H3. cbn [consume inc_count cm_args] in H3. rewrite ?C1, ?C4 in H3. cbn in H3. rewrite ?C4 in H3. cbn in H3. apply ret_ok in H3. destruct H3 as [-> ->]. apply ret_ok in H1. destruct H1 as [E ->]. injection E as _ ->. split; auto.
    - apply ret_ok in H1. destruct H1 as [E ->]. injection E as _ ->. split; auto. }
  destruct END as [-> EM]. rewrite EM in H2. unfold chan_modes_reply in H2. change (has_modes [sign_of add]) with false in H2. cbv iota in H2. apply ret_ok in H2. destruct H2 as [_ ->].
  destruct H4 as [(Q & -> & _)|(Q & s5 & k' & SQ & EMB & AK' & EN & M1 & M2 & M3 & SL)].
  - left. split; [destruct add; [apply Q; reflexivity|intro X; apply Q in X; discriminate X]|]. split; [apply unchanged; intro; apply written_nil; exact O1|]. unfold exists_chan. rewrite lookup_assoc. exact AK1.
  - right. assert (SQ0 : seat s s5) by (transitivity s1; [apply view_seat; auto|exact SQ]). assert (ON : forall g, is_on s5 g ch <-> is_on s g ch) by (intro g; unfold is_on; rewrite EMB, (v_members _ _ V); reflexivity).
    destruct (change_told _ _ _ _ _ _ _ _ _ _ _ _ _ _ T KY NC SQ0 ON AH CI AU F S (proj1 NF) TY AK' ltac:(rewrite EN; exact NLo) SL) as [R V2]. rewrite EN in R. split; [destruct add; [intro X; apply Q; tauto|]|].
    + destruct (entry (list_at x k) m) eqn:E; [apply has_mask_entry; congruence|]. exfalso. apply Q. split; [intro X; apply has_mask_entry in X; congruence|discriminate].
    + split; [exact R|]. exists k'. unfold exists_chan. rewrite lookup_assoc, (v_chans _ _ V2). auto.
Qed.
(** ** key and limit *)
Definition dec_fits (n : N) : bool := let t := dec_N n in (1 <=? List.length t)%nat && (List.length t <=? 5)%nat.
Fixpoint dec_check (k : nat) (lo : N) : bool := match k with 0 => dec_fits lo | Datatypes.S k => dec_check k lo && dec_check k (lo + 2 ^ N.of_nat k)%N end.
Lemma dec_check_ok : forall k lo n, dec_check k lo = true -> (lo <= n < lo + 2 ^ N.of_nat k)%N -> dec_fits n = true.
Proof.
  induction k as [|k IH]; intros lo n H R.
  - change (2 ^ N.of_nat 0)%N with 1%N in R. assert (n = lo) by lia. subst n. exact H.
  - cbn [dec_check] in H. apply andb_true_iff in H. destruct H as [H1 H2]. rewrite Nat2N.inj_succ, N.pow_succ_r in R by lia. destruct (N.ltb_spec n (lo + 2 ^ N.of_nat k)); [apply (IH lo); auto; lia|apply (IH (lo + 2 ^ N.of_nat k)%N); auto; lia].
Qed.
Lemma dec_check_16 : dec_check 16 0 = true.
Proof. vm_compute. reflexivity. Qed.
Lemma dec_short : forall z, (0 < z < 65535)%Z -> 1 <= List.length (dec z) <= 5.
Proof.
  intros z R. unfold dec. destruct (Z.ltb_spec z 0); [lia|]. pose proof (dec_check_ok 16 0 (Z.to_N z) dec_check_16) as A. change (2 ^ N.of_nat 16)%N with 65536%N in A. specialize (A ltac:(lia)). unfold dec_fits in A. apply andb_true_iff in A. destruct A as [A1 A2]. apply Nat.leb_le in A1, A2. lia.
Qed.
Theorem mode_value : forall s i h c text name x a v u d ch k b s', live s -> undisturbed s -> client_of s i h c -> acts s h c text "MODE" [name; ["+"%char; x]; a] u d -> nick_fits d -> Spec.settled d ->
  cf_operservermode (s_conf s) = false -> name <> [] -> ~ In NUL name -> legal_chan name -> the_channel s name ch k -> (forall r, ch_name k <> "+"%char :: r) -> (cl_type c = T_SERVER -> ~ local_name (ch_name k)) ->
  NoDup (ch_modes k) -> List.length (ch_modes k) < 19 -> sets_value x a v ->
  (cl_type c = T_USER -> inside s u d ch /\ half_or_mighty s u d ch) -> Parse_Request i text s = Ok b s' ->
  announced s s' i c d ch (ch_name k) [value_text (ch_name k) x v] /\
  exists k', exists_chan s' ch k' /\ In x (ch_modes k') /\ (forall y, y <> x -> (In y (ch_modes k') <-> In y (ch_modes k))) /\ ch_key k' = (if Ascii.eqb x "k" then a else ch_key k) /\ ch_maxusers k' = (if Ascii.eqb x "l" then atol a else ch_maxusers k).
Proof.
  intros s i h c text name x a v u d ch k b s' L U C AC NF S OSM NE NN LC TC NP NLo ND LN SV PM H. destruct (actor _ _ _ _ _ _ _ _ _ L U C AC NF) as (T & KY & NC & AH & CI & AU & TD & F & NU & NX).
  assert (TY : cl_type c = T_USER /\ u = h /\ d = c \/ cl_type c = T_SERVER) by (destruct AC as [(X & _ & X1 & X2)|(X & _)]; auto).
  assert (AK : assoc ch (s_chans s) = Some k) by (destruct TC as [E _]; unfold exists_chan in E; rewrite lookup_assoc in E; exact E).
  destruct (mode_runs _ _ _ _ _ _ _ _ _ _ _ _ _ L U C AC NF NE NN LC TC ltac:(discriminate) NP (fun X => proj1 (PM X)) H) as (req & s1 & ok & st & s2 & V & O1 & EA & H1 & H2). clear H. cbn [hd hd0] in H1.
  cbv zeta in H1. change (negb (Ascii.eqb "+" "-")) with true in H1. change (plusminus "+") with true in H1. change (sign true) with "+"%char in H1. cbn [negb] in H1. change (if 2 <? List.length [name; ["+"%char; x]; a] then 2%Z else (-1)%Z) with 2%Z in H1.
  pose proof (view_keyed _ _ V KY) as KY1. assert (AK1 : assoc ch (s_chans s1) = Some k) by (rewrite (v_chans _ _ V); exact AK). assert (AH1 : assoc h (s_heap s1) = Some c) by (rewrite (v_heap _ _ V); exact AH).
  assert (IX : In x (B "kl")) by (destruct SV as [(-> & _)|(-> & _)]; cbn; auto).
  assert (PX : plusminus x = false /\ x <> NUL) by (clear - IX; cbn in IX; repeat (destruct IX as [<- |IX]; [split; [reflexivity|discriminate]|]); destruct IX). destruct PX as [PX NX0].
  match type of H1 with context [modes_fuel ?l] => assert (NF0 : exists n, modes_fuel l = Datatypes.S (Datatypes.S n)) by (unfold modes_fuel; eexists; cbn [Nat.mul List.length Nat.add]; reflexivity); destruct NF0 as [n EN0]; rewrite EN0 in H1; clear EN0 end.
  cbn [chan_modes] in H1. bd H1 as nx s3 H3. unfold chan_advance in H3. cbn [cm_skip cm_pos cm_marg cm_aarg cm_args cm_set cm_modes cm_astr cm_count cm_halfop cm_op cm_admin cm_owner] in H3. bd H3 as pos s4 H4. apply ret_ok in H4. destruct H4 as [-> ->]. cbv zeta in H3. apply ret_ok in H3. destruct H3 as [-> ->].
  cbv beta iota zeta in H1. cbn [cm_pos hd0] in H1. rewrite PX in H1. unfold cm_argc in H1. cbn [cm_args cm_aarg List.length] in H1. change (Z.of_nat 3 <=? 2)%Z with false in H1. cbv iota in H1.
  bd H1 as st1 s3 H3. apply privs_ok in H3; auto. destruct H3 as (-> & (C1 & C2 & C3 & C4 & C5 & C6 & C7 & C8 & C9) & K). cbn [cm_args cm_pos cm_marg cm_aarg cm_set cm_skip cm_modes cm_astr cm_count] in C1, C2, C3, C4, C5, C6, C7, C8, C9.
  assert (HA : any_halfop (strchr0 "o" (cl_modes c) && cf_opercanmode (s_conf s)) (ctype_eqb (cl_type c) T_SERVER) st1 = true).
  { eapply any_half_ok; [exact K|]. destruct TY as [(TU & -> & ->)|TS]; [|left; rewrite TS; reflexivity]. right. destruct (PM TU) as (_ & [[M1 M2]|P]).
    - left. rewrite M1, andb_true_r. apply strchr0_iff; [discriminate|exact M2].
    - right. unfold half_op, has_priv in *. rewrite (v_members _ _ V). exact P. }
  bd H1 as ve s3 H3. unfold chan_letter in H3.
  assert (EP : cm_arg (inc_count st1) 2 = a) by (unfold cm_arg, inc_count; cbn [cm_args]; rewrite C1; reflexivity).
  assert (Q : exists k2, seat s1 s3 /\ s_members s3 = s_members s1 /\ map fst (s_chans s3) = map fst (s_chans s1) /\ assoc ch (s_chans s3) = Some k2 /\ ch_name k2 = ch_name k /\ ~ In x (ch_modes k2) /\ NoDup (ch_modes k2) /\ List.length (ch_modes k2) < 20 /\
    (forall y, y <> x -> (In y (ch_modes k2) <-> In y (ch_modes k))) /\ ch_key k2 = (if Ascii.eqb x "k" then a else ch_key k) /\ ch_maxusers k2 = (if Ascii.eqb x "l" then atol a else ch_maxusers k) /\ v <> [] /\ List.length v < 65 /\ ve = V_Next true (consume (inc_count st1)) (Some x) v None).
  { assert (LIM : forall lim s4, Mode_Limit_Reached h (cm_count st1) s1 = Ok lim s4 -> s4 = s1 /\ lim = false).
    { intros lim s4 H4. unfold Mode_Limit_Reached in H4. bd H4 as ty s5 H5. apply Client_Type_ok in H5. destruct H5 as (-> & c1 & A1 & ->). apply ret_ok in H4. destruct H4 as [-> ->]. rewrite C9. split; auto. apply andb_false_r. }
    assert (HA2 : any_halfop (strchr0 "o" (cl_modes c) && cf_opercanmode (s_conf s)) (ctype_eqb (cl_type c) T_SERVER) (inc_count st1) = true) by exact HA.
    assert (STEP : forall f (u0 u1 : unit) t t1, void (Channel_ModeDel ch x) s1 = Ok u0 t -> upd_chan ch f t = Ok u1 t1 -> (forall z, ch_name (f z) = ch_name z /\ ch_modes (f z) = ch_modes z) ->
      exists ms, seat s1 t1 /\ s_members t1 = s_members s1 /\ map fst (s_chans t1) = map fst (s_chans s1) /\ assoc ch (s_chans t1) = Some (f (set_ch_modes ms k)) /\ ~ In x ms /\ NoDup ms /\ List.length ms < 20 /\ (forall y, y <> x -> (In y ms <-> In y (ch_modes k)))).
    { intros f u0 u1 t t1 X1 X2 FF. unfold void in X1. bd X1 as r s5 X3. apply ret_ok in X1. destruct X1 as [_ ->]. assert (LN0 : List.length (ch_modes k) < 20) by lia. destruct (flag_applied ch false x _ _ _ _ NX0 LN0 ND AK1 X3) as (_ & SQ & EM & EK & ms & A & N2 & LM & MS).
      apply upd_chan_ok in X2. destruct X2 as (k1 & A1 & ->). rewrite A in A1. injection A1 as <-. exists ms. split; [transitivity s5; [exact SQ|split; reflexivity]|]. split; [exact EM|]. change (s_chans (set_s_chans (aupd ch f (s_chans s5)) s5)) with (aupd ch f (s_chans s5)). rewrite aupd_keys, assoc_aupd, Nat.eqb_refl, A. split; [exact EK|]. split; [reflexivity|].
      split; [intro X; apply MS in X; rewrite Ascii.eqb_refl in X; discriminate X|]. split; [exact N2|]. split; [lia|]. intros y NY. rewrite MS. destruct (Ascii.eqb_spec y x); [contradiction|reflexivity]. }
    destruct SV as [(-> & V1 & V2 & V3 & ->)|(-> & V1 & ->)].
    - change (letter_k h u (rq_command req) ch (strchr0 "o" (cl_modes c) && cf_opercanmode (s_conf s)) (ctype_eqb (cl_type c) T_SERVER) st1 "k" s1 = Ok ve s3) in H3. unfold letter_k in H3. bd H3 as lim s4 H4. apply LIM in H4. destruct H4 as [-> ->]. cbv zeta in H3.
      change (cm_marg (inc_count st1)) with (cm_marg st1) in H3. change (cm_aarg (inc_count st1)) with (cm_aarg st1) in H3. change (cm_set (inc_count st1)) with (cm_set st1) in H3. rewrite C3, C4, C5, EP, HA2 in H3. change (2 <=? 1)%Z with false in H3. cbn [negb] in H3.
      assert (G : beq a [] || memb " " a = false). { destruct a as [|y a]; [congruence|]. cbn [beq orb]. destruct (memb " " (y :: a)) eqn:E; auto. apply memb_In in E. contradiction. }
      rewrite G in H3. clear G. bd H3 as z s4 H4. bd H3 as z2 s5 H5. unfold Channel_SetKey in H5. rewrite strlcpy_short in H5 by (unfold CLIENT_PASS_LEN; lia). destruct (STEP _ _ _ _ _ H4 H5 ltac:(intro; split; reflexivity)) as (ms & Q1 & Q2 & Q3 & Q4 & Q5 & Q6 & Q7 & Q8).
      bd H3 as ky s6 H6. unfold Channel_Key in H6. bd H6 as k1 s7 H7. apply chan_ok in H7. destruct H7 as [A1 ->]. rewrite Q4 in A1. injection A1 as <-. apply ret_ok in H6. destruct H6 as [-> ->]. apply ret_ok in H3. destruct H3 as [-> ->].
      exists (set_ch_key a (set_ch_modes ms k)). split; [exact Q1|]. split; [exact Q2|]. split; [exact Q3|]. split; [exact Q4|]. split; [reflexivity|]. split; [exact Q5|]. split; [exact Q6|]. split; [exact Q7|]. split; [exact Q8|]. split; [reflexivity|]. split; [reflexivity|]. split; [exact V1|]. split; [exact V3|].
      change (ch_key (set_ch_key a (set_ch_modes ms k))) with a. rewrite strlcpy_short by (unfold CLIENT_PASS_LEN; lia). reflexivity.
    - change (letter_l h u (rq_command req) ch (strchr0 "o" (cl_modes c) && cf_opercanmode (s_conf s)) (ctype_eqb (cl_type c) T_SERVER) st1 "l" s1 = Ok ve s3) in H3. unfold letter_l in H3. bd H3 as lim s4 H4. apply LIM in H4. destruct H4 as [-> ->]. cbv zeta in H3.
      change (cm_marg (inc_count st1)) with (cm_marg st1) in H3. change (cm_aarg (inc_count st1)) with (cm_aarg st1) in H3. change (cm_set (inc_count st1)) with (cm_set st1) in H3. rewrite C3, C4, C5, EP, HA2 in H3. change (2 <=? 1)%Z with false in H3. cbn [negb] in H3.
      assert (G : ((atol a <=? 0) || (65535 <=? atol a))%Z = false) by (apply orb_false_iff; split; apply Z.leb_gt; lia).
      rewrite G in H3. clear G. bd H3 as z s4 H4. bd H3 as z2 s5 H5. unfold Channel_SetMaxUsers in H5. rewrite Z.mod_small in H5 by lia. destruct (STEP _ _ _ _ _ H4 H5 ltac:(intro; split; reflexivity)) as (ms & Q1 & Q2 & Q3 & Q4 & Q5 & Q6 & Q7 & Q8).
      apply ret_ok in H3. destruct H3 as [-> ->]. pose proof (dec_short _ V1) as DS.
      exists (set_ch_maxusers (atol a) (set_ch_modes ms k)). split; [exact Q1|]. split; [exact Q2|]. split; [exact Q3|]. split; [exact Q4|]. split; [reflexivity|]. split; [exact Q5|]. split; [exact Q6|]. split; [exact Q7|]. split; [exact Q8|]. split; [reflexivity|]. split; [reflexivity|]. split; [intro X; rewrite X in DS; cbn in DS; lia|]. split; [lia|].
      rewrite firstn_all2 by (unfold CLIENT_PASS_LEN; lia). reflexivity. }
  destruct Q as (k2 & Q1 & Q2 & Q3 & Q4 & Q5 & Q6 & Q7 & Q8 & Q9 & Q10 & Q11 & Q12 & Q13 & ->). clear H3. cbv beta iota in H1. cbn [negb] in H1. bd H1 as o s4 H3. unfold chan_apply in H3. change (cm_set (consume (inc_count st1))) with (cm_set st1) in H3. rewrite C5 in H3. bd H3 as r s5 H4. apply ret_ok in H3. destruct H3 as [-> ->].
  destruct (flag_applied ch true x _ _ _ _ NX0 Q8 Q7 Q4 H4) as (-> & SQ & EM & EK & ms & A & N2 & LM & MS). clear H4.
  assert (R : negb (Bool.eqb (memb x (ch_modes k2)) true) = true) by (destruct (memb x (ch_modes k2)) eqn:E; [apply memb_In in E; contradiction|reflexivity]). rewrite R in H1. clear R.
  assert (E3 : exists st3, match v with [] => add_mode x (consume (inc_count st1)) | _ :: _ => add_arg v (add_mode x (consume (inc_count st1))) end = st3 /\ cm_pos st3 = [x] /\ cm_skip st3 = false /\ cm_aarg st3 = 3%Z /\ cm_marg st3 = 1%Z /\ List.length (cm_args st3) = 3 /\ cm_modes st3 = ["+"%char; x] /\ cm_astr st3 = " "%char :: v).
  { destruct v as [|v0 v']; [congruence|]. eexists. split; [reflexivity|]. cbn [add_arg add_mode consume inc_count cm_pos cm_skip cm_aarg cm_marg cm_args cm_modes cm_astr]. rewrite C1, C2, C3, C4, C6, C7, C8. rewrite !cat_short by (cbn [List.length app] in *; rewrite ?cat_short by (cbn; lia); cbn in *; lia). repeat split. }
  destruct E3 as (st3 & E3 & P1 & P2 & P3 & P4 & P5 & P6 & P7). cbv beta iota in H1. 
  assert (H1' : chan_modes h u (rq_command req) ch (strchr0 "o" (cl_modes c) && cf_opercanmode (s_conf s)) (ctype_eqb (cl_type c) T_SERVER) (Datatypes.S n) st3 s5 = Ok (ok, st) s2) by (rewrite <- E3; destruct v as [|v0 v']; [congruence|exact H1]). clear H1 E3.
  cbn [chan_modes] in H1'. bd H1' as nx s6 H3. unfold chan_advance in H3. rewrite P2, P1, P3, P4 in H3. unfold cm_argc in H3. rewrite P5 in H3. bd H3 as pos s7 H4. apply ret_ok in H4. destruct H4 as [-> ->]. cbv zeta in H3. cbn in H3. apply ret_ok in H3. destruct H3 as [-> ->]. apply ret_ok in H1'. destruct H1' as [E ->]. injection E as -> ->.
  rewrite P6, P7 in H2. assert (SQ0 : seat s s5) by (transitivity s1; [apply view_seat; auto|transitivity s3; auto]).
  assert (ON : forall g, is_on s5 g ch <-> is_on s g ch) by (intro g; unfold is_on; rewrite EM, Q2, (v_members _ _ V); reflexivity).
  assert (PL : forall z, In z [x] -> plusminus z = false) by (intros z [<- |[]]; exact PX). assert (NL2 : cl_type c = T_SERVER -> ~ local_name (ch_name (set_ch_modes ms k2))) by (change (cl_type c = T_SERVER -> ~ local_name (ch_name k2)); rewrite Q5; exact NLo).
  destruct (reply_told _ _ _ _ _ _ _ _ _ _ _ _ _ _ _ T KY NC SQ0 ON AH CI AU F S (proj1 NF) TY A OSM NL2 PL H2) as [RT V2]. change (ch_name (set_ch_modes ms k2)) with (ch_name k2) in RT. rewrite Q5 in RT. split; [exact RT|].
  exists (set_ch_modes ms k2). unfold exists_chan. rewrite lookup_assoc, (v_chans _ _ V2). split; [exact A|]. change (ch_modes (set_ch_modes ms k2)) with ms. split; [apply MS; rewrite Ascii.eqb_refl; reflexivity|]. split; [intros y NY; rewrite MS; destruct (Ascii.eqb_spec y x); [contradiction|apply Q9; exact NY]|]. split; [exact Q10|exact Q11].
Qed.
Theorem mode_drop : forall s i h c text name x u d ch k b s', live s -> undisturbed s -> client_of s i h c -> acts s h c text "MODE" [name; ["-"%char; x]] u d -> nick_fits d -> Spec.settled d ->
  cf_operservermode (s_conf s) = false -> name <> [] -> ~ In NUL name -> legal_chan name -> the_channel s name ch k -> (forall r, ch_name k <> "+"%char :: r) -> (cl_type c = T_SERVER -> ~ local_name (ch_name k)) ->
  NoDup (ch_modes k) -> List.length (ch_modes k) < 20 -> In x (B "kl") ->
  (cl_type c = T_USER -> inside s u d ch /\ half_or_mighty s u d ch) -> Parse_Request i text s = Ok b s' ->
  announced s s' i c d ch (ch_name k) (if memb x (ch_modes k) then [drop_text (ch_name k) x] else []) /\
  exists k', exists_chan s' ch k' /\ forall y, In y (ch_modes k') <-> y <> x /\ In y (ch_modes k).
Proof.
  intros s i h c text name x u d ch k b s' L U C AC NF S OSM NE NN LC TC NP NLo ND LN IX PM H. destruct (actor _ _ _ _ _ _ _ _ _ L U C AC NF) as (T & KY & NC & AH & CI & AU & TD & F & NU & NX).
  assert (TY : cl_type c = T_USER /\ u = h /\ d = c \/ cl_type c = T_SERVER) by (destruct AC as [(X & _ & X1 & X2)|(X & _)]; auto).
  assert (AK : assoc ch (s_chans s) = Some k) by (destruct TC as [E _]; unfold exists_chan in E; rewrite lookup_assoc in E; exact E).
  destruct (mode_runs _ _ _ _ _ _ _ _ _ _ _ _ _ L U C AC NF NE NN LC TC ltac:(discriminate) NP (fun X => proj1 (PM X)) H) as (req & s1 & ok & st & s2 & V & O1 & EA & H1 & H2). clear H. cbn [hd hd0] in H1.
  cbv zeta in H1. change (negb (Ascii.eqb "-" "-")) with false in H1. change (plusminus "-") with true in H1. change (sign false) with "-"%char in H1. cbn [negb] in H1. change (if 2 <? List.length [name; ["-"%char; x]] then 2%Z else (-1)%Z) with (-1)%Z in H1.
  pose proof (view_keyed _ _ V KY) as KY1. assert (AK1 : assoc ch (s_chans s1) = Some k) by (rewrite (v_chans _ _ V); exact AK). assert (AH1 : assoc h (s_heap s1) = Some c) by (rewrite (v_heap _ _ V); exact AH).
  assert (PX : plusminus x = false /\ x <> NUL) by (clear - IX; cbn in IX; repeat (destruct IX as [<- |IX]; [split; [reflexivity|discriminate]|]); destruct IX). destruct PX as [PX NX0].
  match type of H1 with context [modes_fuel ?l] => assert (NF0 : exists n, modes_fuel l = Datatypes.S (Datatypes.S n)) by (unfold modes_fuel; eexists; cbn [Nat.mul List.length Nat.add]; reflexivity); destruct NF0 as [n EN0]; rewrite EN0 in H1; clear EN0 end.
  cbn [chan_modes] in H1. bd H1 as nx s3 H3. unfold chan_advance in H3. cbn [cm_skip cm_pos cm_marg cm_aarg cm_args cm_set cm_modes cm_astr cm_count cm_halfop cm_op cm_admin cm_owner] in H3. bd H3 as pos s4 H4. apply ret_ok in H4. destruct H4 as [-> ->]. cbv zeta in H3. apply ret_ok in H3. destruct H3 as [-> ->].
  cbv beta iota zeta in H1. cbn [cm_pos hd0] in H1. rewrite PX in H1. unfold cm_argc in H1. cbn [cm_args cm_aarg List.length] in H1. change (Z.of_nat 2 <=? -1)%Z with false in H1. cbv iota in H1.
  bd H1 as st1 s3 H3. apply privs_ok in H3; auto. destruct H3 as (-> & (C1 & C2 & C3 & C4 & C5 & C6 & C7 & C8 & C9) & K). cbn [cm_args cm_pos cm_marg cm_aarg cm_set cm_skip cm_modes cm_astr cm_count] in C1, C2, C3, C4, C5, C6, C7, C8, C9.
  assert (HA : any_halfop (strchr0 "o" (cl_modes c) && cf_opercanmode (s_conf s)) (ctype_eqb (cl_type c) T_SERVER) st1 = true).
  { eapply any_half_ok; [exact K|]. destruct TY as [(TU & -> & ->)|TS]; [|left; rewrite TS; reflexivity]. right. destruct (PM TU) as (_ & [[M1 M2]|P]).
    - left. rewrite M1, andb_true_r. apply strchr0_iff; [discriminate|exact M2].
    - right. unfold half_op, has_priv in *. rewrite (v_members _ _ V). exact P. }
  bd H1 as ve s3 H3. unfold chan_letter in H3.
  assert (Q : s3 = s1 /\ ve = V_Next true (inc_count st1) (Some x) (if Ascii.eqb x "k" && memb x (ch_modes k) then B "*" else []) None).
  { assert (LIM : forall lim s4, Mode_Limit_Reached h (cm_count st1) s1 = Ok lim s4 -> s4 = s1 /\ lim = false).
    { intros lim s4 H4. unfold Mode_Limit_Reached in H4. bd H4 as ty s5 H5. apply Client_Type_ok in H5. destruct H5 as (-> & c1 & A1 & ->). apply ret_ok in H4. destruct H4 as [-> ->]. rewrite C9. split; auto. apply andb_false_r. }
    assert (HA2 : any_halfop (strchr0 "o" (cl_modes c) && cf_opercanmode (s_conf s)) (ctype_eqb (cl_type c) T_SERVER) (inc_count st1) = true) by exact HA.
    cbn in IX. destruct IX as [<- |[<- |[]]].
    - change (letter_k h u (rq_command req) ch (strchr0 "o" (cl_modes c) && cf_opercanmode (s_conf s)) (ctype_eqb (cl_type c) T_SERVER) st1 "k" s1 = Ok ve s3) in H3. unfold letter_k in H3. bd H3 as lim s4 H4. apply LIM in H4. destruct H4 as [-> ->]. cbv zeta in H3.
      change (cm_marg (inc_count st1)) with (cm_marg st1) in H3. change (cm_aarg (inc_count st1)) with (cm_aarg st1) in H3. change (cm_set (inc_count st1)) with (cm_set st1) in H3. rewrite C3, C4, C5, HA2 in H3. change (1 <? -1)%Z with false in H3. cbn [negb] in H3.
      bd H3 as hk s4 H4. apply ChHasMode_ok in H4. destruct H4 as (-> & k1 & A1 & ->). rewrite AK1 in A1. injection A1 as <-. apply ret_ok in H3. destruct H3 as [-> ->]. split; reflexivity.
    - change (letter_l h u (rq_command req) ch (strchr0 "o" (cl_modes c) && cf_opercanmode (s_conf s)) (ctype_eqb (cl_type c) T_SERVER) st1 "l" s1 = Ok ve s3) in H3. unfold letter_l in H3. bd H3 as lim s4 H4. apply LIM in H4. destruct H4 as [-> ->]. cbv zeta in H3.
      change (cm_set (inc_count st1)) with (cm_set st1) in H3. rewrite C5, HA2 in H3. cbn [negb] in H3. apply ret_ok in H3. destruct H3 as [-> ->]. split; reflexivity. }
  destruct Q as [-> ->]. clear H3. cbv beta iota in H1. cbn [negb] in H1. bd H1 as o s4 H3. unfold chan_apply in H3. change (cm_set (inc_count st1)) with (cm_set st1) in H3. rewrite C5 in H3. bd H3 as r s5 H4. apply ret_ok in H3. destruct H3 as [-> ->].
  destruct (flag_applied ch false x _ _ _ _ NX0 LN ND AK1 H4) as (-> & SQ & EM & EK & ms & A & N2 & LM & MS). clear H4.
  assert (R : negb (Bool.eqb (memb x (ch_modes k)) false) = memb x (ch_modes k)) by (destruct (memb x (ch_modes k)); reflexivity). rewrite R in H1. clear R.
  assert (E3 : exists st3, match (if Ascii.eqb x "k" && memb x (ch_modes k) then B "*" else []) with [] => if memb x (ch_modes k) then add_mode x (inc_count st1) else inc_count st1
      | _ :: _ => add_arg (if Ascii.eqb x "k" && memb x (ch_modes k) then B "*" else []) (if memb x (ch_modes k) then add_mode x (inc_count st1) else inc_count st1) end = st3 /\
      cm_pos st3 = [x] /\ cm_skip st3 = false /\ cm_aarg st3 = (-1)%Z /\ cm_modes st3 = "-"%char :: (if memb x (ch_modes k) then [x] else []) /\ cm_astr st3 = (if memb x (ch_modes k) then if Ascii.eqb x "k" then B " *" else [] else [])).
  { eexists. split; [reflexivity|]. clear - IX C2 C4 C6 C7 C8. cbn in IX. destruct IX as [<- |[<- |[]]]; [change (Ascii.eqb "k" "k") with true|change (Ascii.eqb "l" "k") with false]; destruct (memb _ (ch_modes k)); cbn [andb]; change (B "*") with ["*"%char]; cbv iota; cbn [add_arg add_mode inc_count cm_pos cm_skip cm_aarg cm_marg cm_args cm_modes cm_astr]; rewrite ?C2, ?C4, ?C6, ?C7, ?C8; repeat split. }
  destruct E3 as (st3 & E3 & P1 & P2 & P3 & P6 & P7).
  assert (H1' : chan_modes h u (rq_command req) ch (strchr0 "o" (cl_modes c) && cf_opercanmode (s_conf s)) (ctype_eqb (cl_type c) T_SERVER) (Datatypes.S n) st3 s5 = Ok (ok, st) s2) by (rewrite <- E3; destruct (if Ascii.eqb x "k" && memb x (ch_modes k) then B "*" else []); exact H1). clear H1 E3.
  cbn [chan_modes] in H1'. bd H1' as nx s6 H3. unfold chan_advance in H3. rewrite P2, P1, P3 in H3. bd H3 as pos s7 H4. apply ret_ok in H4. destruct H4 as [-> ->]. cbv zeta in H3. cbn in H3. apply ret_ok in H3. destruct H3 as [-> ->]. apply ret_ok in H1'. destruct H1' as [E ->]. injection E as -> ->.
  rewrite P6, P7 in H2. assert (SQ0 : seat s s5) by (transitivity s1; [apply view_seat; auto|auto]).
  assert (ON : forall g, is_on s5 g ch <-> is_on s g ch) by (intro g; unfold is_on; rewrite EM, (v_members _ _ V); reflexivity).
  assert (PL : forall z, In z (if memb x (ch_modes k) then [x] else []) -> plusminus z = false) by (intros z; destruct (memb x (ch_modes k)); [intros [<- |[]]; exact PX|intros []]).
  destruct (reply_told _ _ _ _ _ _ _ _ _ _ _ _ _ _ _ T KY NC SQ0 ON AH CI AU F S (proj1 NF) TY A OSM NLo PL H2) as [RT V2]. change (ch_name (set_ch_modes ms k)) with (ch_name k) in RT. split.
  - destruct (memb x (ch_modes k)); exact RT.
  - exists (set_ch_modes ms k). unfold exists_chan. rewrite lookup_assoc, (v_chans _ _ V2). split; [exact A|]. change (ch_modes (set_ch_modes ms k)) with ms. intro y. rewrite MS. destruct (Ascii.eqb_spec y x) as [-> |NY]; [split; [discriminate|intros [X _]; congruence]|tauto].
Qed.
