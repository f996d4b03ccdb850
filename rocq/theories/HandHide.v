(** Secret channels (C30). *)
From Coq Require Import List Ascii String ZArith NArith Bool Lia Arith.
From Coq Require Import Relations RelationClasses.
From Verif Require Import Bytes Strl Match Lists ListsProofs Hash ParseReq State Messages Monad Core Write Info Chan Mode Msg Login Oper Server Dispatch Conn.
From Verif Require Import Rel RelWrite RelInfo RelBase RelChan RelSrv RelInit RelKey RelCmd RelComp WF RelGone Frame Tree Inv1 Inv2 Inv4 Live Spec Observ Unch HandOper HandPrefix HandLine Frames Attrib HandGain HandUser HandChan HandJoin HandKick Output HandDo HandSend SpecLink HandCast SpecInfo Hide0 Hide1.
Import ListNotations.
Local Open Scope m_scope.

Lemma filter_nil_sub : forall A (f g : A -> bool) l, filter f l = [] -> filter f (filter g l) = [].
Proof.
  intros A f g l E. destruct (filter f (filter g l)) as [|x r] eqn:F; [reflexivity|]. exfalso. assert (J : In x (filter f (filter g l))) by (rewrite F; left; reflexivity).
  apply filter_In in J. destruct J as [J1 J2]. apply filter_In in J1. destruct J1 as [J1 _]. assert (K : In x (filter f l)) by (apply filter_In; auto). rewrite E in K. destruct K.
Qed.
Section S.
Variables (k : chandle) (h : handle) (op nm un : bool).
(** what is known all the time; [op]: the user is no operator, [nm]: nobody visible is on the channel only,
    [un]: no other channel has this name *)
Definition P (s : state) : Prop :=
  (exists c, assoc k (s_chans s) = Some c /\ strchr0 "s" (ch_modes c) = true) /\
  (forall m, In m (s_members s) -> mb_chan m = k -> mb_client m <> h) /\
  (exists c, assoc h (s_heap s) = Some c /\ cl_type c <> T_SERVER /\ (op = true -> memb "o" (cl_modes c) = false)) /\
  (nm = true -> forall m c, In m (s_members s) -> mb_chan m = k -> assoc (mb_client m) (s_heap s) = Some c ->
    (exists m', In m' (s_members s) /\ mb_client m' = mb_client m /\ mb_chan m' <> k) \/ memb "i" (cl_modes c) = true) /\
  NoDup (map fst (s_chans s)) /\
  (un = true -> forall c j d, assoc k (s_chans s) = Some c -> In (j, d) (s_chans s) -> j <> k -> caseeq (ch_name d) (ch_name c) = false).
Definition stab {A} (m : M A) : Prop := forall s a s', m s = Ok a s' -> P s -> P s'.
(** the first program, without the channel, does what the second one does with it *)
Definition cm2 {A} (m1 m2 : M A) : Prop := forall s, P s -> m1 (hide k s) = hres k (m2 s).
Notation cmP m := (cm2 m m).
Lemma wr_P : forall s s', wr s s' -> P s -> P s'.
Proof.
  intros s s' W (P1 & P2 & P3 & P4 & P5). pose proof (wr_same _ _ W) as E. split; [rewrite (w_chans _ _ E); exact P1|]. split; [rewrite (w_members _ _ E); exact P2|]. split; [|split; [|rewrite (w_chans _ _ E); exact P5]].
  - destruct P3 as (c & A & O). destruct (wr_cli _ _ _ _ W A) as (x & A'). eexists. split; [exact A'|]. exact O.
  - intros N m c I M A. rewrite (w_members _ _ E) in *. destruct (wr_cli_back _ _ _ _ W A) as (c0 & x & A0 & ->). exact (P4 N m c0 I M A0).
Qed.
Lemma wr_stab : forall A (m : M A), rel wr m -> stab m.
Proof. intros A m R s a s' H. apply wr_P. exact (R _ _ _ H). Qed.
Lemma stab_bind : forall A E (m : M A) (f : A -> M E), stab m -> (forall a, stab (f a)) -> stab (bind m f).
Proof. intros A E m f Hm Hf s b s' H Q. bd H as a s1 H1. exact (Hf _ _ _ _ H (Hm _ _ _ H1 Q)). Qed.
Lemma comm_P : forall A (m : M A), comm k m -> cmP m. Proof. intros A m C s _. apply C. Qed.
Lemma cmP_bind : forall A E (m : M A) (f : A -> M E), cmP m -> stab m -> (forall a, cmP (f a)) -> cmP (bind m f).
Proof.
  intros A E m f Hm Sm Hf s Q. unfold bind. rewrite (Hm s Q). destruct (m s) as [a s'|w] eqn:R; cbn [hres]; [|reflexivity]. apply Hf. exact (Sm _ _ _ R Q).
Qed.
Lemma cm2_bind : forall A E (m1 m2 : M A) (f1 f2 : A -> M E), cm2 m1 m2 -> stab m2 -> (forall a, cm2 (f1 a) (f2 a)) -> cm2 (bind m1 f1) (bind m2 f2).
Proof.
  intros A E m1 m2 f1 f2 Hm Sm Hf s Q. unfold bind. rewrite (Hm s Q). destruct (m2 s) as [a s'|w] eqn:R; cbn [hres]; [|reflexivity]. apply Hf. exact (Sm _ _ _ R Q).
Qed.
Lemma cmP_andM : forall a b, cmP a -> stab a -> cmP b -> cmP (andM a b).
Proof. intros a b Ha Sa Hb. apply cmP_bind; auto. intros []; [exact Hb|apply comm_P, comm_ret]. Qed.
Lemma cmP_mall : forall A (l : list A) f, (forall a, cmP (f a)) -> (forall a, stab (f a)) -> cmP (mall l f).
Proof. intros A l f H Hs. induction l; cbn [mall]; [apply comm_P, comm_ret|apply cmP_andM; auto]. Qed.
Lemma cmP_mfold : forall A E (l : list A) (f : E -> A -> M E), (forall e a, cmP (f e a)) -> (forall e a, stab (f e a)) -> forall e, cmP (mfold f l e).
Proof. intros A E l f H Hs. induction l; intro e; cbn [mfold]; [apply comm_P, comm_ret|apply cmP_bind; auto]. Qed.

(** ---- access to channels ---- *)
Lemma assoc_adel : forall A (l : list (nat * A)) j, j <> k -> assoc j (adel k l) = assoc j l.
Proof.
  intros A l j N. induction l as [|[a x] l IH]; [reflexivity|]. cbn [adel filter fst]. destruct (Nat.eqb k a) eqn:E.
  - apply Nat.eqb_eq in E. subst a. cbn [negb]. cbn [assoc]. destruct (Nat.eqb j k) eqn:F; [apply Nat.eqb_eq in F; contradiction|exact IH].
  - cbn [negb assoc]. destruct (Nat.eqb j a); [reflexivity|exact IH].
Qed.
Lemma comm_chan : forall ch, ch <> k -> comm k (chan ch).
Proof. intros ch N s. unfold chan. change (s_chans (hide k s)) with (adel k (s_chans s)). rewrite assoc_adel by exact N. destruct (assoc ch (s_chans s)); reflexivity. Qed.
Lemma filter_ff : forall A (f g : A -> bool) l, (forall x, In x l -> f x = true -> g x = true) -> filter f (filter g l) = filter f l.
Proof.
  intros A f g l H. induction l as [|x l IH]; [reflexivity|]. cbn [filter]. destruct (g x) eqn:G; cbn [filter]; rewrite IH by (intros; apply H; [right|]; assumption); [reflexivity|].
  destruct (f x) eqn:F; [|reflexivity]. rewrite (H x (or_introl eq_refl) F) in G. discriminate.
Qed.
Lemma find_ff : forall A (f g : A -> bool) l, (forall x, In x l -> f x = true -> g x = true) -> find f (filter g l) = find f l.
Proof.
  intros A f g l H. induction l as [|x l IH]; [reflexivity|]. cbn [filter]. destruct (g x) eqn:G; cbn [find]; rewrite IH by (intros; apply H; [right|]; assumption); [reflexivity|].
  destruct (f x) eqn:F; [|reflexivity]. rewrite (H x (or_introl eq_refl) F) in G. discriminate.
Qed.
Lemma comm_Members : forall ch, ch <> k -> comm k (Members ch).
Proof.
  intros ch N. apply comm_gets. intro s. cbn [hide s_members set_s_members]. rewrite filter_ff; [reflexivity|]. intros x _ E. apply Nat.eqb_eq in E. rewrite E. apply Nat.eqb_neq in N. rewrite N. reflexivity.
Qed.
Lemma comm_Get : forall ch g, ch <> k -> comm k (Get_Cl2Chan ch g).
Proof.
  intros ch g N. apply comm_gets. intro s. cbn [hide s_members set_s_members]. apply find_ff. intros x _ E. unfold is_mb in E. apply andb_prop in E. destruct E as [E _].
  apply Nat.eqb_eq in E. rewrite E. apply Nat.eqb_neq in N. rewrite N. reflexivity.
Qed.
Lemma comm_Count : forall ch, ch <> k -> comm k (Channel_MemberCount ch).
Proof.
  intros ch N. apply comm_gets. intro s. cbn [hide s_members set_s_members]. rewrite filter_ff; [reflexivity|]. intros x _ E. apply Nat.eqb_eq in E. rewrite E. apply Nat.eqb_neq in N. rewrite N. reflexivity.
Qed.

Hint Resolve comm_chan comm_Members comm_Get comm_Count : comm.
Lemma comm_HasMode : forall ch m, ch <> k -> comm k (Channel_HasMode ch m). Proof. intros. unfold Channel_HasMode. cm. Qed.
Lemma comm_Name : forall ch, ch <> k -> comm k (Channel_Name ch). Proof. intros. unfold Channel_Name. cm. Qed.
Lemma comm_Topic : forall ch, ch <> k -> comm k (Channel_Topic ch). Proof. intros. unfold Channel_Topic. cm. Qed.
Lemma comm_IsLocal : forall ch, ch <> k -> comm k (Channel_IsLocal ch). Proof. intros. unfold Channel_IsLocal. cm. Qed.
Hint Resolve comm_HasMode comm_Name comm_Topic comm_IsLocal : comm.
Lemma comm_aChan : forall ch, ch <> k -> comm k (aChan ch). Proof. intros. unfold aChan. cm. Qed.
Lemma comm_IsMemberOf : forall ch g, ch <> k -> comm k (Channel_IsMemberOf ch g). Proof. intros. unfold Channel_IsMemberOf. cm. Qed.
Lemma comm_UserModes : forall ch g, ch <> k -> comm k (Channel_UserModes ch g). Proof. intros. unfold Channel_UserModes. cm. Qed.
Hint Resolve comm_aChan comm_IsMemberOf comm_UserModes : comm.

(** the hidden channel itself *)
Lemma not_member : forall s, P s -> Channel_IsMemberOf k h s = Ok false s.
Proof.
  intros s (_ & Q & _). unfold Channel_IsMemberOf, Get_Cl2Chan, bind, gets, ret. destruct (find (is_mb k h) (s_members s)) eqn:F; [|reflexivity].
  apply find_some in F. destruct F as [I E]. unfold is_mb in E. apply andb_prop in E. destruct E as [E1 E2]. apply Nat.eqb_eq in E1. apply Nat.eqb_eq in E2. exfalso. exact (Q _ I E1 E2).
Qed.
Lemma is_secret : forall s, P s -> Channel_HasMode k "s" s = Ok true s.
Proof. intros s ((c & A & E) & _). unfold Channel_HasMode, bind, chan, ret. rewrite A, E. reflexivity. Qed.
Lemma has_name : forall s, P s -> exists n, Channel_Name k s = Ok n s.
Proof. intros s ((c & A & E) & _). unfold Channel_Name, bind, chan, ret. rewrite A. eauto. Qed.
Lemma no_oper : forall s, op = true -> P s -> Client_HasMode h "o" s = Ok false s.
Proof. intros s O (_ & _ & (c & A & _ & E) & _). unfold Client_HasMode, bind, cli, ret. rewrite A. change (strchr0 "o" (cl_modes c)) with (memb "o" (cl_modes c)). rewrite (E O). reflexivity. Qed.
Lemma sender_is : forall req f s, P s -> with_sender h req f s = f h s.
Proof.
  intros req f s (_ & _ & (c & A & T & _) & _). unfold with_sender, is_type, Client_Type, bind, cli, ret. rewrite A. destruct (ctype_eqb (cl_type c) T_SERVER) eqn:E; [|reflexivity].
  apply ctype_eqb_eq in E. contradiction.
Qed.
Lemma hide_P : forall req f, cmP (f h) -> cmP (with_sender h req f).
Proof.
  intros req f H s Q. rewrite (sender_is _ _ _ Q), <- (H s Q). destruct Q as (_ & _ & (c & A & T & _) & _). unfold with_sender, is_type, Client_Type, bind, cli, ret.
  change (s_heap (hide k s)) with (s_heap s). rewrite A. destruct (ctype_eqb (cl_type c) T_SERVER) eqn:E; [|reflexivity].
  apply ctype_eqb_eq in E. contradiction.
Qed.

(** ---- LIST ---- *)
Ltac cmc := solve [apply comm_P; cm].
Ltac stb := apply wr_stab; rel_auto.
Lemma bind_eq : forall A E (m : M A) (f : A -> M E) s a s', m s = Ok a s' -> bind m f s = f a s'.
Proof. intros A E m f s a s' H. unfold bind. rewrite H. reflexivity. Qed.
Lemma list_skip : forall p l n s, op = true -> P s -> list_chans h p (k :: l) n s = list_chans h p l n s.
Proof.
  intros p l n s O Q. cbn [list_chans]. destruct (has_name _ Q) as [nm' N]. rewrite (bind_eq _ _ _ _ _ _ _ N). destruct (MatchCaseInsensitive p nm'); [|reflexivity].
  assert (E : orM (notM (Channel_HasMode k "s")) (orM (Channel_IsMemberOf k h) (Client_HasMode h "o")) s = Ok false s).
  { unfold orM, notM. rewrite (bind_eq _ _ _ _ _ false s); [|rewrite (bind_eq _ _ _ _ _ _ _ (is_secret _ Q)); reflexivity]. rewrite (bind_eq _ _ _ _ _ _ _ (not_member _ Q)). exact (no_oper _ O Q). }
  rewrite (bind_eq _ _ _ _ _ _ _ E). reflexivity.
Qed.
Definition keep (ch : chandle) : bool := negb (Nat.eqb k ch).
Lemma chans_hide : forall s, map fst (s_chans (hide k s)) = filter keep (map fst (s_chans s)).
Proof.
  intro s. change (s_chans (hide k s)) with (adel k (s_chans s)). unfold adel. induction (s_chans s) as [|[a c] l IH]; [reflexivity|]. cbn [filter map fst]. unfold keep at 1.
  destruct (Nat.eqb k a); cbn [negb map]; rewrite IH; reflexivity.
Qed.
Lemma keep_ne : forall ch, keep ch = true -> ch <> k.
Proof. intros ch E ->. unfold keep in E. rewrite Nat.eqb_refl in E. discriminate. Qed.
Lemma keep_eq : forall ch, keep ch = false -> ch = k.
Proof. intros ch E. unfold keep in E. apply negb_false_iff, Nat.eqb_eq in E. congruence. Qed.
Lemma list_chans_hide : forall p l n s, op = true -> P s -> list_chans h p (filter keep l) n (hide k s) = hres k (list_chans h p l n s).
Proof.
  intros p l n s O. revert n s. induction l as [|ch l IH]; intros n s Q; [reflexivity|]. cbn [filter]. destruct (keep ch) eqn:K.
  - apply keep_ne in K. cbn [list_chans]. revert s Q. apply cm2_bind; [cmc|stb|]. intro nme. apply cm2_bind; [cmc|stb|]. intro show. destruct show; cbn [negb]; [|intros s Q; exact (IH _ _ Q)].
    apply cm2_bind; [cmc|stb|]. intro mx. apply cm2_bind; [cmc|stb|]. intro big. destruct big; [cmc|]. apply cm2_bind; [cmc|stb|]. intro c. apply cm2_bind; [cmc|stb|]. intro tp.
    apply cm2_bind; [cmc|stb|]. intros []; cbn [negb]; [|cmc]. intros s Q; exact (IH _ _ Q).
  - apply keep_eq in K. subst ch. rewrite (list_skip _ _ _ _ O Q). exact (IH _ _ Q).
Qed.
Lemma cm2_Chans : cm2 (ll <- Chans ;; ret ll) (ll <- Chans ;; ret (filter keep ll)).
Proof. intros s Q. unfold Chans, bind, gets, ret. rewrite chans_hide. reflexivity. Qed.
Lemma Chans_hide : forall A (f1 f2 : list chandle -> M A), (forall l, cm2 (f1 (filter keep l)) (f2 l)) -> cm2 (bind Chans f1) (bind Chans f2).
Proof. intros A f1 f2 H s Q. unfold Chans, bind, gets. rewrite chans_hide. apply H. exact Q. Qed.
Lemma list_pats_hide : forall pats n, op = true -> cmP (list_pats h pats n).
Proof.
  intros pats n O. revert n. induction pats as [|p pats IH]; intro n; cbn [list_pats]; [cmc|]. apply Chans_hide. intro l. apply cm2_bind; [intros s Q; apply list_chans_hide; auto|stb|]. intros [m|]; [apply IH|cmc].
Qed.
Lemma LIST_hide : forall req, op = true -> cmP (IRC_LIST h req).
Proof.
  intros req O. unfold IRC_LIST. apply hide_P. cbv zeta. set (pats := if 0 <? argc req then _ else _).
  assert (H : cmP ((IRC_WriteStrClient h RPL_LISTSTART_MSG [aID h]) >>> (list_pats h pats 0) >>> (IRC_WriteStrClient h RPL_LISTEND_MSG [aID h]))).
  { apply cmP_andM; [cmc|stb|]. apply cmP_andM; [apply list_pats_hide; exact O|stb|cmc]. }
  destruct (argc req =? 2); [|exact H]. apply cm2_bind; [cmc|stb|]. intro o. apply cm2_bind; [cmc|stb|]. intros [t|]; [|cmc]. destruct (heq t This_Server); [exact H|cmc].
Qed.

(** ---- NAMES ---- *)
Lemma names_secret : forall s, P s -> IRC_Send_NAMES h k s = Ok true s.
Proof.
  intros s Q. unfold IRC_Send_NAMES. rewrite (bind_eq _ _ _ _ _ _ _ (not_member _ Q)). cbn [negb]. unfold cf. rewrite (bind_eq _ _ _ _ _ (cf_moreprivacy (s_conf s)) s) by reflexivity.
  rewrite (bind_eq _ _ _ _ _ _ _ (is_secret _ Q)). cbn [andb]. destruct (cf_moreprivacy (s_conf s)); reflexivity.
Qed.
Lemma names_other : forall ch, ch <> k -> comm k (IRC_Send_NAMES h ch).
Proof. intros ch N. unfold IRC_Send_NAMES. cm. Qed.
Lemma mall_hide : forall (f : chandle -> M bool) l, (forall s, P s -> f k s = Ok true s) -> (forall ch, ch <> k -> cmP (f ch)) -> (forall ch, stab (f ch)) -> cm2 (mall (filter keep l) f) (mall l f).
Proof.
  intros f l Hk Hf Hs. induction l as [|ch l IH]; [cbn [filter mall]; cmc|]. cbn [filter]. destruct (keep ch) eqn:K; cbn [mall].
  - apply keep_ne in K. apply cm2_bind; [auto|auto|]. intros []; [exact IH|cmc].
  - apply keep_eq in K. subst ch. intros s Q. unfold andM at 1. rewrite (bind_eq _ _ _ _ _ _ _ (Hk _ Q)). apply IH. exact Q.
Qed.
Definition alone (n : bytes) (s : state) : Prop := forall j d, In (j, d) (s_chans s) -> j <> k -> caseeq n (ch_name d) = false.
Lemma search_hide : forall n s, P s -> alone n s \/ (forall c, assoc k (s_chans s) = Some c -> caseeq n (ch_name c) = false) -> forall A (f1 f2 : option chandle -> M A),
  ((forall c, assoc k (s_chans s) = Some c -> caseeq n (ch_name c) = true) -> f1 None (hide k s) = hres k (f2 (Some k) s)) -> (forall o, o <> Some k -> f1 o (hide k s) = hres k (f2 o s)) -> 
  bind (Channel_Search n) f1 (hide k s) = hres k (bind (Channel_Search n) f2 s).
Proof.
  intros n s Q C A f1 f2 H1 H2. assert (ND : NoDup (map fst (s_chans s))) by apply Q. unfold Channel_Search, bind, gets. change (s_chans (hide k s)) with (adel k (s_chans s)). unfold adel.
  destruct (find (fun p => chan_is n (snd p)) (s_chans s)) as [[j d]|] eqn:F.
  - apply find_some in F as F'. destruct F' as [I E]. cbn [snd] in E. destruct (Nat.eq_dec j k) as [->|NE].
    + match goal with |- context [find ?f (filter ?g ?l)] => assert (F2 : find f (filter g l) = None) end.
      { destruct (find _ (filter _ _)) as [[j2 d2]|] eqn:F2; [|reflexivity]. apply find_some in F2. destruct F2 as [I2 E2]. apply filter_In in I2. destruct I2 as [I2 N2]. cbn [fst snd] in *.
        apply negb_true_iff, Nat.eqb_neq in N2. unfold chan_is in *. apply andb_prop in E, E2. destruct C as [C|C].
        - rewrite (C _ _ I2) in E2 by congruence. destruct E2; discriminate.
        - rewrite (C d) in E; [destruct E; discriminate|]. apply In_assoc; auto. }
      rewrite F2. cbn [option_map fst]. apply H1. intros c0 A0. rewrite (In_assoc _ _ _ _ ND I) in A0. injection A0 as <-. unfold chan_is in E. apply andb_prop in E. apply E.
    + match goal with |- context [find ?f (filter ?g ?l)] => assert (F2 : find f (filter g l) = Some (j, d)) end.
      { rewrite <- F. destruct C as [C|C].
        - exfalso. unfold chan_is in E. apply andb_prop in E. rewrite (C _ _ I NE) in E. destruct E; discriminate.
        - apply find_ff. intros [j2 d2] I2 E2. cbn [fst snd] in *. apply negb_true_iff, Nat.eqb_neq. intros <-. unfold chan_is in E2. apply andb_prop in E2. rewrite (C d2) in E2; [destruct E2; discriminate|]. apply In_assoc; auto. }
      rewrite F2. cbn [option_map fst]. apply H2. congruence.
  - match goal with |- context [find ?f (filter ?g ?l)] => assert (F2 : find f (filter g l) = None) end.
    { destruct (find _ (filter _ _)) as [x|] eqn:F2; [|reflexivity]. apply find_some in F2. destruct F2 as [I2 E2]. apply filter_In in I2. destruct I2 as [I2 _]. rewrite (find_none _ _ F _ I2) in E2. discriminate. }
    rewrite F2. cbn [option_map]. apply H2. discriminate.
Qed.
Lemma search_one' : forall n A (f1 f2 : option chandle -> M A), un = true -> cm2 (f1 None) (f2 (Some k)) -> (forall o, o <> Some k -> cm2 (f1 o) (f2 o)) ->
  cm2 (bind (Channel_Search n) f1) (bind (Channel_Search n) f2).
Proof.
  intros n A f1 f2 U H1 H2 s Q. pose proof Q as ((c & AS & _) & _ & _ & _ & _ & Q6). apply search_hide; auto; [|intros o N; exact (H2 o N s Q)].
  destruct (caseeq n (ch_name c)) eqn:E; [left|right].
  - intros j d I N. destruct (caseeq n (ch_name d)) eqn:E2; [|reflexivity]. rewrite <- (Q6 U c j d AS I N). symmetry. apply same_name_iff. apply same_name_iff in E, E2. unfold same_name in *. congruence.
  - intros c0 A0. congruence.
Qed.
Lemma CountForUser_hide : forall A g (f1 f2 : client -> Z -> M A), nm = true ->
  (forall x n n', ((n =? 0)%Z && negb (memb "i" (cl_modes x)) = (n' =? 0)%Z && negb (memb "i" (cl_modes x))) -> cm2 (f1 x n) (f2 x n')) ->
  cm2 (x <- cli g ;; n <- Channel_CountForUser g ;; f1 x n) (x <- cli g ;; n <- Channel_CountForUser g ;; f2 x n).
Proof.
  intros A g f1 f2 U H s Q. unfold bind at 1 3. unfold cli. change (s_heap (hide k s)) with (s_heap s). destruct (assoc g (s_heap s)) as [x|] eqn:AG; [|reflexivity].
  unfold Channel_CountForUser, bind, gets. apply H; [|exact Q]. destruct Q as (_ & _ & _ & Q4 & _). specialize (Q4 U).
  change (s_members (hide k s)) with (filter (fun m => negb (Nat.eqb (mb_chan m) k)) (s_members s)).
  destruct (memb "i" (cl_modes x)) eqn:I; [rewrite !andb_false_r; reflexivity|]. rewrite !andb_true_r.
  destruct (filter (fun m => heq (mb_client m) g) (s_members s)) as [|m l] eqn:F.
  - rewrite filter_nil_sub; [reflexivity|exact F].
  - change (Z.of_nat (List.length (m :: l)) =? 0)%Z with false.
    assert (M : exists m', In m' (s_members s) /\ mb_client m' = g /\ mb_chan m' <> k).
    { assert (J : In m (filter (fun m => heq (mb_client m) g) (s_members s))) by (rewrite F; left; reflexivity). apply filter_In in J. destruct J as [J1 J2]. apply Nat.eqb_eq in J2.
      destruct (Nat.eq_dec (mb_chan m) k) as [E|E]; [|eauto]. subst g. destruct (Q4 m x J1 E AG) as [(m' & M1 & M2 & M3)|M]; [eauto|congruence]. }
    destruct M as (m' & M1 & M2 & M3). destruct (filter (fun m0 => heq (mb_client m0) g) (filter _ _)) as [|y r] eqn:F2; [|reflexivity].
    assert (J : In m' []). { rewrite <- F2. apply filter_In. split; [apply filter_In; split; [exact M1|apply negb_true_iff, Nat.eqb_neq; exact M3]|]. apply Nat.eqb_eq. exact M2. } destruct J.
Qed.
Lemma stab_Send_NAMES : forall g ch, stab (IRC_Send_NAMES g ch). Proof. intros. stb. Qed.
Lemma forward_hide : forall req n fwd f, (forall t, cmP (fwd t h)) -> (forall t, stab (fwd t h)) -> cmP (f h) -> cmP (forward_or h req n fwd f).
Proof.
  intros req n fwd f H1 H2 H3. unfold forward_or. apply hide_P.
  assert (K : forall t, cmP (if negb (heq t This_Server) then void (fwd t h) ;;; ret CONNECTED else f h)).
  { intro t. destruct (negb (heq t This_Server)); [|exact H3]. apply cm2_bind; [|intros s a s' R; unfold void in R; bd R as x s1 R1; apply ret_ok in R; destruct R as [_ ->]; exact (H2 _ _ _ _ R1)|intro; cmc].
    unfold void. apply cm2_bind; auto. intro. cmc. }
  unfold with_target. destruct (n <? argc req); [|apply K]. apply cm2_bind; [cmc|stb|]. intro o. apply cm2_bind; [cmc|stb|]. intros [t|]; [|cmc].
  apply cm2_bind; [cmc|stb|]. intros []; [apply K|]. apply cm2_bind; [cmc|stb|]. intro i. apply K.
Qed.
Lemma NAMES_hide : forall req, un = true \/ argc req = 0 -> nm = true \/ argc req <> 0 -> cmP (IRC_NAMES h req).
Proof.
  intros req U N. unfold IRC_NAMES. apply forward_hide; [intro; cmc|intro; stb|]. cbv beta. destruct (0 <? argc req) eqn:AR.
  - assert (UN : un = true). { destruct U as [U|U]; [exact U|]. rewrite U in AR. discriminate. } clear U.
    apply cmP_mall; [|intro; stb]. intro name. apply search_one'; [exact UN| |].
    + intros s Q. unfold andM. rewrite (bind_eq _ _ (ret true) _ _ true (hide k s)) by reflexivity. rewrite (bind_eq _ _ _ _ _ _ _ (names_secret _ Q)). revert s Q. cmc.
    + intros [ch|] NE; [|cmc]. apply comm_P. unfold andM. apply comm_bind; [apply names_other; congruence|]. intros []; cm.
  - assert (NM : nm = true). { destruct N as [N|N]; [exact N|]. apply Nat.ltb_ge in AR. lia. } clear N U. apply Chans_hide. intro l. unfold andM at 1 3. apply cm2_bind; [|stb|].
    + apply mall_hide; [exact names_secret|intros ch NE; apply comm_P, names_other; exact NE|intro; apply stab_Send_NAMES].
    + intros []; [|cmc]. apply cm2_bind; [cmc|stb|]. intro s0. apply cm2_bind; [cmc|stb|]. intro cl. apply cm2_bind; [|stb|].
      * apply cmP_mfold; [|intros; stb]. intros [rpl|] g; [|cmc]. apply (CountForUser_hide _ g (fun x n => _) (fun x n => _)); [exact NM|]. intros x n n' E. rewrite <- !andb_assoc, E. cmc.
      * intros [rpl|]; [|cmc]. cmc.
Qed.

(** ---- WHO ---- *)
Lemma comm_write_whoreply : forall c i n f, comm k (write_whoreply c i n f). Proof. intros. unfold write_whoreply. cm. Qed.
Hint Resolve comm_write_whoreply : comm.
Lemma who_other : forall ch o, ch <> k -> comm k (IRC_WHO_Channel h ch o).
Proof. intros ch o N. unfold IRC_WHO_Channel. cm. Qed.
Lemma same_chan_hide : forall g, cmP (on_same_channel h g).
Proof.
  intros g s Q. unfold on_same_channel, ChannelsOf. unfold bind at 1 3, gets at 1 2.
  assert (E : filter (fun m => heq (mb_client m) h) (s_members (hide k s)) = filter (fun m => heq (mb_client m) h) (s_members s)).
  { change (s_members (hide k s)) with (filter (fun m => negb (Nat.eqb (mb_chan m) k)) (s_members s)). apply filter_ff. intros m I H. apply negb_true_iff, Nat.eqb_neq. intro E. apply Nat.eqb_eq in H. destruct Q as (_ & Q & _). exact (Q _ I E H). }
  rewrite E. assert (NK : forall m, In m (filter (fun m => heq (mb_client m) h) (s_members s)) -> mb_chan m <> k).
  { intros m I H. apply filter_In in I. destruct I as [I1 I2]. apply Nat.eqb_eq in I2. destruct Q as (_ & Q & _). exact (Q _ I1 H I2). }
  clear E. revert s Q NK. intros s Q. generalize (filter (fun m => heq (mb_client m) h) (s_members s)) as l. intros l NK. revert s Q. 
  change (cm2 (o <- mfind (fun ch => Channel_IsMemberOf ch g) (map mb_chan l) ;; ret (is_some o)) (o <- mfind (fun ch => Channel_IsMemberOf ch g) (map mb_chan l) ;; ret (is_some o))).
  apply comm_P. apply comm_bind; [|intro; cm]. induction l as [|m l IH]; cbn [map mfind]; [cm|]. apply comm_bind; [apply comm_IsMemberOf, NK; left; reflexivity|]. intros []; [cm|]. apply IH. intros x I. apply NK. right. exact I.
Qed.
Lemma stab_same : forall g, stab (on_same_channel h g). Proof. intros. stb. Qed.
Lemma who_mask_hide : forall m o, cmP (IRC_WHO_Mask h m o).
Proof.
  intros m o. unfold IRC_WHO_Mask. cbv zeta. apply cm2_bind; [cmc|stb|]. intros _. apply cm2_bind; [cmc|stb|]. intro l. apply cm2_bind; [|stb|].
  - apply cmP_mfold; [|intros; stb]. intros [n|e] g; [|cmc]. apply cm2_bind; [cmc|stb|]. intro x. destruct (negb (ctype_eqb (cl_type x) T_USER)); [cmc|]. destruct (o && negb (memb "o" (cl_modes x))); [cmc|].
    apply cm2_bind; [cmc|stb|]. intro mt. destruct (negb mt); [cmc|]. apply cm2_bind; [cmc|stb|]. intro id. apply cm2_bind.
    + destruct (negb (memb "i" (cl_modes x))); [cmc|]. match goal with |- cm2 (if ?b then _ else _) _ => destruct b end; [cmc|apply same_chan_hide].
    + destruct (negb (memb "i" (cl_modes x))); [stb|]. match goal with |- stab (if ?b then _ else _) => destruct b end; [stb|apply stab_same].
    + intro vis. cmc.
  - intros [n|[]]; cmc.
Qed.
Lemma WHO_hide : forall req s, P s -> (forall a c, nth_error (rq_args req) 0 = Some a -> assoc k (s_chans s) = Some c -> caseeq a (ch_name c) = false) ->
  IRC_WHO h req (hide k s) = hres k (IRC_WHO h req s).
Proof.
  intros req s Q NE. unfold IRC_WHO. cbv zeta. destruct (1 <=? argc req) eqn:AR; [|apply who_mask_hide; exact Q].
  pose proof Q as ((c & AK & _) & _). apply search_hide; [exact Q| | |].
  - right. intros c0 A0. apply NE; [|exact A0]. unfold arg, argc in *. destruct (rq_args req); [discriminate|reflexivity].
  - intro X. pose proof (X _ AK) as X1. rewrite (NE (arg req 0) c) in X1; [discriminate| |exact AK]. unfold arg, argc in *. destruct (rq_args req); [discriminate|reflexivity].
  - intros [ch|] N.
    + apply (who_other ch). congruence.
    + destruct (negb (beq (arg req 0) (B "0"))); apply who_mask_hide; exact Q.
Qed.

(** ---- WHOIS ---- *)
Lemma whois_chan_step : forall c (acc : option bytes) ch, ch <> k -> comm k (match acc with
    | None => ret None
    | Some str =>
        hide <- orM (andM (Channel_HasMode ch "s") (notM (Channel_IsMemberOf ch h))) (andM (is_type h T_SERVER) (Channel_IsLocal ch)) ;;
        if hide then ret acc
        else
          let str := if no_colon_end str then cat str (B " ") else str in
          modes <- Channel_UserModes ch c ;;
          str <- who_flags_qualifier h modes str COMMAND_LEN ;;
          name <- Channel_Name ch ;;
          let str := cat str name in
          if COMMAND_LEN - CHANNEL_NAME_LEN - 4 <? List.length str then
            ok <- IRC_WriteStrClient h "%s" [aS str] ;;
            if negb ok then ret None
            else s <- line RPL_WHOISCHANNELS_MSG [aID h; aID c] ;; ret (Some s)
          else ret (Some str)
    end).
Proof. intros c acc ch N. cm. Qed.
Lemma mfold_skip : forall E (f : E -> chandle -> M E) l, (forall e s, P s -> f e k s = Ok e s) -> (forall e ch, ch <> k -> cmP (f e ch)) -> (forall e ch, stab (f e ch)) ->
  forall e, cm2 (mfold f (filter keep l) e) (mfold f l e).
Proof.
  intros E f l Hk Hf Hs. induction l as [|ch l IH]; intro e; [cbn [filter mfold]; cmc|]. cbn [filter]. destruct (keep ch) eqn:K; cbn [mfold].
  - apply keep_ne in K. apply cm2_bind; auto.
  - apply keep_eq in K. rewrite K. intros s Q. rewrite (bind_eq _ _ _ _ _ _ _ (Hk e s Q)). apply IH. exact Q.
Qed.
Lemma whois_channels_hide : forall c, cmP (whois_channels h h c).
Proof.
  intro c. unfold whois_channels. apply cm2_bind; [cmc|stb|]. intro start.
  assert (G : forall A (f1 f2 : list chandle -> M A), (forall l, cm2 (f1 (filter keep l)) (f2 l)) -> cm2 (bind (ChannelsOf c) f1) (bind (ChannelsOf c) f2)).
  { intros A f1 f2 H s Q. unfold ChannelsOf, bind, gets. change (s_members (hide k s)) with (filter (fun m => negb (Nat.eqb (mb_chan m) k)) (s_members s)).
    match goal with |- f1 ?x _ = _ => assert (E : x = filter keep (map mb_chan (filter (fun m => heq (mb_client m) c) (s_members s)))) end.
    { induction (s_members s) as [|m r IH]; [reflexivity|]. cbn [filter]. destruct (negb (Nat.eqb (mb_chan m) k)) eqn:E1; cbn [filter]; destruct (heq (mb_client m) c); cbn [map filter]; unfold keep at 1; rewrite ?(Nat.eqb_sym k), ?E1, ?IH; reflexivity. }
    rewrite E. apply H. exact Q. }
  apply G. intro l. apply cm2_bind; [|stb|].
  - apply mfold_skip; [|intros e ch N; apply comm_P, whois_chan_step; exact N|intros; stb].
    intros [str|] s Q; [|reflexivity].
    assert (E : orM (andM (Channel_HasMode k "s") (notM (Channel_IsMemberOf k h))) (andM (is_type h T_SERVER) (Channel_IsLocal k)) s = Ok true s).
    { unfold orM, andM. rewrite (bind_eq _ _ _ _ _ true s); [reflexivity|]. rewrite (bind_eq _ _ _ _ _ _ _ (is_secret _ Q)). unfold notM. rewrite (bind_eq _ _ _ _ _ _ _ (not_member _ Q)). reflexivity. }
    rewrite (bind_eq _ _ _ _ _ _ _ E). reflexivity.
  - intros [str|]; cmc.
Qed.
Lemma whois_reply_hide : forall c, cmP (IRC_WHOIS_SendReply h h c).
Proof.
  intro c. unfold IRC_WHOIS_SendReply. apply cmP_andM; [cmc|stb|]. apply cmP_andM; [cmc|stb|]. apply cmP_andM; [|stb|cmc].
  apply cm2_bind; [cmc|stb|]. intros []; cbn [whenB]; [apply whois_channels_hide|cmc].
Qed.
Lemma stab_reply : forall c, stab (IRC_WHOIS_SendReply h h c). Proof. intros. stb. Qed.
Lemma whois_wild_hide : forall q n, cmP (whois_wild h h q n).
Proof.
  intros q n. unfold whois_wild. apply cm2_bind; [cmc|stb|]. intro l. apply cm2_bind; [|stb|intro; cmc]. apply cmP_mfold; [|intros; stb]. intros [e [f|]] c; cbn [fst snd]; [cmc|].
  apply cm2_bind; [cmc|stb|]. intros []; [cmc|]. apply cm2_bind; [cmc|stb|]. intro x. destruct (negb (ctype_eqb (cl_type x) T_USER)); [cmc|]. destruct (memb "i" (cl_modes x)); [cmc|].
  apply cm2_bind; [cmc|stb|]. intro id. destruct (negb (MatchCaseInsensitive q id)); [cmc|]. apply cm2_bind; [apply whois_reply_hide|apply stab_reply|]. intros []; cmc.
Qed.
Lemma whois_loop_hide : forall req r qs got n, cmP (whois_loop h h req r qs got n).
Proof.
  intros req r qs. induction qs as [|q qs IH]; intros got n; cbn [whois_loop]; [cmc|]. cbv zeta. destruct (_ || r).
  - apply cmP_andM; [|stb|apply IH]. apply cm2_bind; [cmc|stb|]. intros [c|]; [|cmc]. apply cm2_bind; [cmc|stb|]. intro t. destruct (_ || _); [apply whois_reply_hide|cmc].
  - destruct got; [apply cmP_andM; [cmc|stb|apply IH]|]. apply cm2_bind; [cmc|stb|]. intros _. apply cm2_bind; [apply whois_wild_hide|stb|]. intros [m ok]; cbn [fst snd]. destruct (negb ok); [cmc|].
    apply cm2_bind; [cmc|stb|]. intros _. apply IH.
Qed.
Lemma WHOIS_hide : forall req, cmP (IRC_WHOIS h req).
Proof.
  intro req. unfold IRC_WHOIS. destruct (argc req <? 1); [cmc|]. destruct (2 <? argc req); [cmc|]. apply hide_P. cbv zeta.
  assert (K : forall t, cmP (if negb (heq t This_Server) then void (IRC_WriteStrClientPrefix t h "WHOIS %s :%s" [aS (arg req 0); aS (arg req 1)]) ;;; ret CONNECTED
     else fc <- Client_Conn h ;; (whois_loop h h req (negb (is_some fc)) (firstn 3 (strtok "," (lower (strlcpy COMMAND_LEN (arg req (argc req - 1)))))) false 0) >>>
          (IRC_WriteStrClient h RPL_ENDOFWHOIS_MSG [aID h; aS (arg req (argc req - 1))]))).
  { intro t. destruct (negb (heq t This_Server)); [cmc|]. apply cm2_bind; [cmc|stb|]. intro fc. apply cmP_andM; [apply whois_loop_hide|stb|cmc]. }
  destruct (1 <? argc req); [|apply K]. unfold with_target. destruct (0 <? argc req); [|apply K]. apply cm2_bind; [cmc|stb|]. intro o. apply cm2_bind; [cmc|stb|]. intros [t|]; [|cmc].
  apply cm2_bind; [cmc|stb|]. intros []; [apply K|]. apply cm2_bind; [cmc|stb|]. intro i. apply K.
Qed.

(** ---- LUSERS ---- *)
Lemma count_visible_hide : cmP (Channel_CountVisible (Some h)).
Proof.
  unfold Channel_CountVisible. apply Chans_hide. intro l. induction l as [|ch l IH]; [cbn [filter mcount]; cmc|]. cbn [filter]. destruct (keep ch) eqn:K; cbn [mcount].
  - apply keep_ne in K. apply cm2_bind; [cmc|stb|]. intro b. apply cm2_bind; [exact IH|stb|]. intro n. cmc.
  - apply keep_eq in K. rewrite K. intros s Q.
    assert (E : orM (notM (Channel_HasMode k "s")) (Channel_IsMemberOf k h) s = Ok false s).
    { unfold orM, notM. rewrite (bind_eq _ _ _ _ _ false s); [|rewrite (bind_eq _ _ _ _ _ _ _ (is_secret _ Q)); reflexivity]. exact (not_member _ Q). }
    rewrite (bind_eq _ _ _ _ _ _ _ E). rewrite (IH s Q). unfold bind. destruct (mcount _ l s); reflexivity.
Qed.
Lemma LUSERS_hide : forall req, cmP (IRC_LUSERS h req).
Proof.
  intro req. unfold IRC_LUSERS. apply forward_hide; [intro; cmc|intro; stb|]. unfold IRC_Send_LUSERS. apply cm2_bind; [cmc|stb|]. intro a. apply cm2_bind; [cmc|stb|]. intro b. apply cm2_bind; [cmc|stb|]. intro c.
  do 3 (apply cmP_andM; [cmc|stb|]). apply cmP_andM; [|stb|cmc]. apply cm2_bind; [apply count_visible_hide|stb|]. intro; cmc.
Qed.
End S.

(** ---- whole lines ---- *)
Lemma plain_eq : forall s i h c text n args cmd, client_of s i h c -> cl_type c = T_USER -> forall name, parse_line (trim text) = Some (mkReq None name args) -> same_name name (B n) ->
  (cf_scrubctcp (s_conf s) = true -> ~ exists a b, trim text = a ++ ":"%char :: "001"%char :: b) ->
  find (fun c => String.eqb (cm_name c) n) My_Commands = Some cmd -> type_in T_USER (cm_types cmd) = true ->
  Parse_Request i text s = run_command h T_USER cmd (mkReq None name args) s.
Proof.
  intros s i h c text n args cmd [(cn & CN & CC) CH] T name P N SC F TI. rewrite lookup_assoc in *. unfold Parse_Request. cbv zeta. unfold cf.
  rewrite (bind_eq _ _ _ _ _ (cf_scrubctcp (s_conf s)) s) by reflexivity.
  assert (NS : cf_scrubctcp (s_conf s) && ScrubCTCP (trim text) = false). { apply andb_false_iff. destruct (cf_scrubctcp (s_conf s)); [right|auto]. destruct (ScrubCTCP (trim text)) eqn:E; auto. exfalso. apply SC; auto. apply scrub_ctcp. exact E. }
  rewrite NS, P.
  assert (G : Conn_GetClient i s = Ok (Some h) s). { unfold Conn_GetClient, bind, con, ret. rewrite CN, CC. reflexivity. }
  assert (Y : Client_Type h s = Ok T_USER s). { unfold Client_Type, bind, cli, ret. rewrite CH, T. reflexivity. }
  assert (V : Validate_Prefix i (mkReq None name args) s = Ok (inr (mkReq None name args)) s).
  { unfold Validate_Prefix. rewrite (bind_eq _ _ _ _ _ _ _ G). rewrite (bind_eq _ _ _ _ _ h s) by reflexivity. rewrite (bind_eq _ _ _ _ _ _ _ Y). rewrite (bind_eq _ _ _ _ _ cn s) by (unfold con; rewrite CN; reflexivity). reflexivity. }
  rewrite (bind_eq _ _ _ _ _ _ _ V). unfold Handle_Request. rewrite (bind_eq _ _ _ _ _ _ _ G). rewrite (bind_eq _ _ _ _ _ h s) by reflexivity. rewrite (bind_eq _ _ _ _ _ _ _ Y). cbn [ctype_eqb orb andb rq_command].
  assert (I : In n (map cm_name My_Commands)). { apply find_some in F. destruct F as [F1 F2]. apply String.eqb_eq in F2. subst. apply in_map. auto. }
  rewrite (find_name _ n I N), F. reflexivity.
Qed.
Lemma run_hide : forall k h op nm un cmd req s, P k h op nm un s -> type_in T_USER (cm_types cmd) = true -> (0 <= cm_penalty cmd)%Z ->
  (forall s1, P k h op nm un s1 -> s_chans s1 = s_chans s -> cm_fun cmd h req (hide k s1) = hres k (cm_fun cmd h req s1)) ->
  run_command h T_USER cmd req (hide k s) = hres k (run_command h T_USER cmd req s).
Proof.
  intros k h op nm un cmd req s Q TI PP H. unfold run_command. rewrite TI. cbn [negb].
  assert (C : comm k (whenM (negb (cm_penalty cmd =? 0)%Z) (IRC_SetPenalty h (cm_penalty cmd)))) by cm.
  unfold bind at 1 3. rewrite (C s). destruct (whenM _ _ s) as [u s1|w] eqn:R; cbn [hres]; [|reflexivity].
  assert (W : wr s s1). { match type of R with ?m _ = _ => assert (X : rel wr m) by rel_auto; exact (X _ _ _ R) end. }
  destruct (_ || _). { assert (C2 : comm k (need_more h req)) by cm. apply C2. }
  unfold bind, modify. apply (H (set_s_wcounter 0 s1)); [|cbn [s_chans set_s_wcounter]; exact (w_chans _ _ (wr_same _ _ W))].
  pose proof (wr_P _ _ _ _ _ _ _ W Q) as Q1. exact Q1.
Qed.
Lemma hidden : forall s i h c text n args cmd k op nm un, client_of s i h c -> cl_type c = T_USER -> orders s text n args ->
  find (fun c => String.eqb (cm_name c) n) My_Commands = Some cmd -> type_in T_USER (cm_types cmd) = true -> P k h op nm un s ->
  (forall name s1, P k h op nm un s1 -> s_chans s1 = s_chans s -> cm_fun cmd h (mkReq None name args) (hide k s1) = hres k (cm_fun cmd h (mkReq None name args) s1)) ->
  blind (Parse_Request i text) k s.
Proof.
  intros s i h c text n args cmd k op nm un C T [(name & PL & N) SC] F TI Q H b s' R. pose proof (plain_eq _ _ _ _ _ _ _ _ C T _ PL N SC F TI) as E.
  pose proof (plain_eq (hide k s) i h c text n args cmd C T _ PL N SC F TI) as E2.
  change (without k) with (hide k). rewrite E2, (run_hide _ _ _ _ _ _ _ _ Q TI); [|apply cmd_penalty, (find_some _ _ F)|exact (H name)]. rewrite <- E, R. split; [reflexivity|]. intros j l (x & X1 & X2). exists x. split; [exact X1|exact X2].
Qed.
Lemma secret_P : forall s i h c k cc op nm un, live s -> client_of s i h c -> cl_type c = T_USER -> secret_to s h k cc ->
  (op = true -> ~ In "o"%char (cl_modes c)) -> (nm = true -> no_loners s k) -> (un = true -> own_name s k cc) -> P k h op nm un s.
Proof.
  intros s i h c k cc op nm un L C T (K & S & N) O NM U. rewrite lookup_assoc in K. destruct C as [_ CH]. rewrite lookup_assoc in CH. split; [exists cc; split; [exact K|change (memb "s" (ch_modes cc) = true); apply memb_In; exact S]|]. split.
  { intros m I E1 E2. apply N. exists m. auto. } split. { exists c. split; [exact CH|]. split; [rewrite T; discriminate|]. intro E. specialize (O E). destruct (memb "o" (cl_modes c)) eqn:M; [|reflexivity]. exfalso. apply O. apply memb_In. exact M. }
  split. { intros E m d I E1 A. destruct (NM E (mb_client m) d) as [(ch' & NE & m' & I' & E2 & E3)|X]; [exists m; auto|rewrite lookup_assoc; exact A| |].
    - left. exists m'. split; [exact I'|]. split; [exact E2|]. congruence.
    - right. apply memb_In. exact X. }
  split; [exact (wf_chans _ (live_wf _ L))|]. intros E c0 j d A I NE. rewrite K in A. injection A as <-. destruct (caseeq (ch_name d) (ch_name cc)) eqn:X; [|reflexivity]. exfalso. apply same_name_iff in X. exact (U E _ _ I NE X).
Qed.
Lemma list_blind : forall s i h c text args k cc, live s -> client_of s i h c -> cl_type c = T_USER -> ~ In "o"%char (cl_modes c) -> secret_to s h k cc -> orders s text "LIST" args -> blind (Parse_Request i text) k s.
Proof.
  intros s i h c text args k cc L C T O S D. eapply (hidden s i h c text "LIST" args _ k true false false C T D); [reflexivity|reflexivity|eapply secret_P; eauto; discriminate|].
  intros name s1 Q _. exact (LIST_hide k h true false false (mkReq None name args) eq_refl s1 Q).
Qed.
Lemma whois_blind : forall s i h c text args k cc, live s -> client_of s i h c -> cl_type c = T_USER -> secret_to s h k cc -> orders s text "WHOIS" args -> blind (Parse_Request i text) k s.
Proof.
  intros s i h c text args k cc L C T S D. eapply (hidden s i h c text "WHOIS" args _ k false false false C T D); [reflexivity|reflexivity|eapply secret_P; eauto; discriminate|].
  intros name s1 Q _. exact (WHOIS_hide k h false false false (mkReq None name args) s1 Q).
Qed.
Lemma lusers_blind : forall s i h c text args k cc, live s -> client_of s i h c -> cl_type c = T_USER -> secret_to s h k cc -> orders s text "LUSERS" args -> blind (Parse_Request i text) k s.
Proof.
  intros s i h c text args k cc L C T S D. eapply (hidden s i h c text "LUSERS" args _ k false false false C T D); [reflexivity|reflexivity|eapply secret_P; eauto; discriminate|].
  intros name s1 Q _. exact (LUSERS_hide k h false false false (mkReq None name args) s1 Q).
Qed.
Lemma names_blind : forall s i h c text args k cc, live s -> client_of s i h c -> cl_type c = T_USER -> secret_to s h k cc -> own_name s k cc -> args <> [] -> orders s text "NAMES" args -> blind (Parse_Request i text) k s.
Proof.
  intros s i h c text args k cc L C T S U NE D. eapply (hidden s i h c text "NAMES" args _ k false false true C T D); [reflexivity|reflexivity|eapply secret_P; eauto; discriminate|].
  intros name s1 Q _. apply (NAMES_hide k h false false true); [left; reflexivity|right; destruct args; [contradiction|discriminate]|exact Q].
Qed.
Lemma names_all_blind : forall s i h c text k cc, live s -> client_of s i h c -> cl_type c = T_USER -> secret_to s h k cc -> no_loners s k -> orders s text "NAMES" [] -> blind (Parse_Request i text) k s.
Proof.
  intros s i h c text k cc L C T S U D. eapply (hidden s i h c text "NAMES" [] _ k false true false C T D); [reflexivity|reflexivity|eapply secret_P; eauto; discriminate|].
  intros name s1 Q _. apply (NAMES_hide k h false true false); [right; reflexivity|left; reflexivity|exact Q].
Qed.
Lemma who_blind : forall s i h c text args k cc, live s -> client_of s i h c -> cl_type c = T_USER -> secret_to s h k cc -> (forall a r, args = a :: r -> ~ same_name a (ch_name cc)) -> orders s text "WHO" args -> blind (Parse_Request i text) k s.
Proof.
  intros s i h c text args k cc L C T S U D. eapply (hidden s i h c text "WHO" args _ k false false false C T D); [reflexivity|reflexivity|eapply secret_P; eauto; discriminate|].
  intros name s1 Q E. apply (WHO_hide k h false false false); [exact Q|]. cbn [rq_args]. intros a c0 N A. rewrite E in A. destruct S as [K _]. rewrite lookup_assoc in K. rewrite K in A. injection A as <-.
  destruct args as [|a0 r]; [discriminate|]. injection N as ->. destruct (caseeq a (ch_name cc)) eqn:X; [|reflexivity]. exfalso. apply (U a r eq_refl). apply same_name_iff. exact X.
Qed.
