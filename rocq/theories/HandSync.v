(** The synchronisation with a new server link (C45). *)
From Coq Require Import List Ascii String ZArith NArith Bool Lia Arith.
From Coq Require Import Relations RelationClasses.
From Verif Require Import Bytes Strl Match Lists ListsProofs Hash ParseReq State Messages Monad Core Write Info Chan Mode Msg Login Oper Server Dispatch Conn.
From Verif Require Import Rel RelWrite RelInfo RelBase RelChan RelSrv RelInit RelKey RelCmd RelComp WF RelGone Frame Tree RelReg Inv1 Inv2 Inv3 Inv4 Inv5 Live Spec Observ Unch HandOper HandPrefix HandLine Frames Attrib HandGain HandUser HandChan HandJoin HandKick HandMode HandLogin Output HandDo HandCap HandSend SpecMore HandInvite HandServer SpecLink HandCast HandTime SpecSync.
Import ListNotations.
Local Open Scope m_scope.

(** ---- the output only grows ---- *)
Lemma wr_out : forall s s', wr s s' -> exists new, s_out s' = new ++ s_out s.
Proof.
  intros s s' W. induction W as [s s' H|s|s s1 s2 H1 (n1 & E1) H2 (n2 & E2)]; [|exists []; reflexivity|exists (n2 ++ n1); rewrite E2, E1, app_assoc; reflexivity].
  destruct H; try (exists []; reflexivity). eexists [_]. reflexivity.
Qed.
Lemma sent_out : forall a b i t, (exists n1 n2 : list (connid * bytes), s_out b = n2 ++ (i, wire t) :: n1 ++ s_out a) -> sent a b i t.
Proof. intros a b i t (n1 & n2 & E). exists (n2 ++ (i, wire t) :: n1). split; [rewrite E, <- app_assoc; reflexivity|]. apply in_or_app. right. left. reflexivity. Qed.
(** one line between two parts of the run *)
Lemma sent_mid : forall s a b s' i t, (exists n, s_out a = n ++ s_out s) -> s_out b = (i, wire t) :: s_out a -> (exists n, s_out s' = n ++ s_out b) -> sent s s' i t.
Proof. intros s a b s' i t (n1 & E1) E (n2 & E2). apply sent_out. exists n1, n2. rewrite E2, E, E1. reflexivity. Qed.
Definition grow (s s' : state) : Prop := exists n, s_out s' = n ++ s_out s.
#[export] Instance grow_po : PreOrder grow.
Proof. split; [intro s; exists []; reflexivity|]. intros a b c (n1 & E1) (n2 & E2). exists (n2 ++ n1). rewrite E2, E1, app_assoc. reflexivity. Qed.
Lemma sent_grow : forall s a b s' i t, grow s a -> sent a b i t -> grow b s' -> sent s s' i t.
Proof.
  intros s a b s' i t (n1 & E1) (n & E & I) (n2 & E2). exists (n2 ++ n ++ n1). split; [rewrite E2, E, E1, !app_assoc; reflexivity|]. apply in_or_app. right. apply in_or_app. auto.
Qed.
Lemma before_grow : forall s a1 b1 a2 b2 s' i t u, grow s a1 -> sent a1 b1 i t -> grow b1 a2 -> sent a2 b2 i u -> grow b2 s' -> sent_before s s' i t u.
Proof.
  intros s a1 b1 a2 b2 s' i t u (n1 & E1) (n2 & E2 & I2) (n3 & E3) (n4 & E4 & I4) (n5 & E5).
  apply in_split in I2. destruct I2 as (x1 & x2 & ->). apply in_split in I4. destruct I4 as (y1 & y2 & ->).
  exists (n5 ++ y1), (y2 ++ n3 ++ x1), (x2 ++ n1). rewrite E5, E4, E3, E2, E1. repeat (rewrite <- !app_assoc; cbn [app]). reflexivity.
Qed.
Lemma mall_in : forall A (f : A -> M bool), (forall x, rel wr (f x)) -> forall l x s s', In x l -> mall l f s = Ok true s' -> exists a b, wr s a /\ f x a = Ok true b /\ wr b s'.
Proof.
  intros A f R l. assert (Rl : forall l, rel wr (mall l f)). { intro l0. induction l0 as [|y r IH]; cbn [mall]; [rel_auto|]. apply rel_andM; auto. }
  induction l as [|y l IH]; intros x s s' I H; [destruct I|]. cbn [mall] in H. apply and_then_ok in H. destruct H as (b & s1 & H1 & [[-> H2]|[_ [_ E]]]); [|discriminate E]. destruct I as [-> |I].
  - exists s, s1. split; [reflexivity|]. split; auto. eapply Rl; eauto.
  - destruct (IH _ _ _ I H2) as (a & b & W1 & F & W2). exists a, b. split; auto. etransitivity; [eapply R; eauto|exact W1].
Qed.

(** ---- the new link [h], on connection [i] ---- *)
Section L.
Variables (i : connid) (h : handle) (fl : bytes) (rfc : bool).
Definition linked (s : state) : Prop :=
  (forall g c j, assoc g (s_heap s) = Some c -> cl_conn c = Some j -> exists cn, assoc j (s_conns s) = Some cn /\ co_open cn = true) /\
  (exists cn, assoc i (s_conns s) = Some cn /\ co_open cn = true /\ co_rfc1459 cn = rfc) /\
  exists c, assoc h (s_heap s) = Some c /\ cl_conn c = Some i /\ cl_type c = T_SERVER /\ cl_flags c = fl /\ (cl_introducer c = None \/ cl_introducer c = Some h \/ cl_introducer c = Some This_Server).
Lemma linked_wr : forall s s', wr s s' -> linked s -> linked s'.
Proof.
  intros s s' W [AO [(cn & C1 & C2 & C3) (c & A1 & A2 & A3 & A4 & A5)]]. split; [|split].
  - intros g d j G J. destruct (wr_cli_back _ _ _ _ W G) as (d0 & x & G0 & ->). cbn in J. destruct (AO _ _ _ G0 J) as (cj & K1 & K2). destruct (wr_con_keep _ _ W _ _ K1) as (cn' & D1 & D2). exists cn'. split; auto. destruct D2 as [D2 _]. congruence.
  - destruct (wr_con_keep _ _ W _ _ C1) as (cn' & D1 & D2). exists cn'. unfold co_same in D2. repeat match goal with H : _ /\ _ |- _ => destruct H end. repeat split; auto; congruence.
  - destruct (wr_cli _ _ _ _ W A1) as (x & E). eexists. split; [exact E|]. cbn. auto.
Qed.
(** what is written to it *)
Lemma link_write : forall s pref f l vals b s', linked s -> mseq l s = Ok vals s -> IRC_WriteStrClientPrefix h pref f l s = Ok b s' ->
  b = true /\ exists p, assoc pref (s_heap s) = Some p /\ s_out s' = (i, wire (prefixed (id_of p) (fmt (B f) vals))) :: s_out s.
Proof.
  intros s pref f l vals b s' [_ [(cn & C1 & C2 & _) (c & A1 & A2 & A3 & _ & A5)]] M H.
  destruct (WriteStrClientPrefix_ok _ _ _ _ _ _ _ H) as (v2 & s1 & nh & c1 & i1 & p & s2 & M1 & N & B1 & B2 & G & [W1 W2 W3 W4]).
  rewrite M in M1. injection M1 as <- <-. assert (nh = h). { eapply next_hop_fun; [exact N|]. eapply NH_direct; [rewrite lookup_assoc; exact A1|exact A5]. } subst nh.
  rewrite A1 in B1. injection B1 as <-. rewrite A2 in B2. injection B2 as <-. unfold Get_Prefix in G. bd G as t s3 G1. apply is_type_ok in G1. destruct G1 as (-> & c1 & D1 & ->). rewrite A1 in D1. injection D1 as <-.
  rewrite A3 in G. cbn in G. apply Client_ID_ok in G. destruct G as [-> (pc & G1 & ->)]. unfold is_open in W3. rewrite C1, C2 in W3. subst b. split; auto. exists pc. split; auto.
Qed.
Definition fine (m : M bool) : Prop := forall s b s', linked s -> m s = Ok b s' -> b = true.
Lemma fine_ret : fine (ret true). Proof. intros s b s' _ H. apply ret_ok in H. apply H. Qed.
Lemma fine_and : forall a b, fine a -> rel wr a -> fine b -> fine (a >>> b).
Proof. intros a b Fa Ra Fb s r s' L H. apply and_then_ok in H. destruct H as (x & s1 & H1 & [[-> H2]|[-> [-> ->]]]); [eapply Fb; [|exact H2]; eapply linked_wr; eauto|]. exact (Fa _ _ _ L H1). Qed.
Lemma fine_mall : forall A (f : A -> M bool), (forall x, fine (f x)) -> (forall x, rel wr (f x)) -> forall l, fine (mall l f).
Proof. intros A f Ff Rf l. induction l as [|x l IH]; cbn [mall]; [apply fine_ret|]. apply fine_and; auto. Qed.
Lemma fine_bind : forall A (m : M A) f, rel wr m -> (forall a, fine (f a)) -> fine (bind m f).
Proof. intros A m f R F s b s' L H. bd H as a s1 H1. eapply F; [|exact H]. eapply linked_wr; [eapply R; eauto|exact L]. Qed.
Lemma fine_whenB : forall c m, fine m -> fine (whenB c m).
Proof. intros [] m F; [exact F|]. apply fine_ret. Qed.
Definition still {A} (m : M A) : Prop := forall s v s', m s = Ok v s' -> s' = s.
Lemma fine_write : forall to pref f l, still (mseq l) -> fine (IRC_WriteStrClientPrefix to pref f l).
Proof.
  intros to pref f l Q s b s' L H. destruct (WriteStrClientPrefix_ok _ _ _ _ _ _ _ H) as (v2 & s1 & nh & c1 & i1 & p & s2 & M1 & N & B1 & B2 & G & [W1 W2 W3 W4]).
  pose proof (Q _ _ _ M1). subst s1. assert (W : wr s s2). { revert G. match goal with |- ?m _ = _ -> _ => assert (R : rel wr m) by rel_auto; exact (R _ _ _) end. }
  pose proof (linked_wr _ _ W L) as [AO _]. destruct (wr_cli _ _ _ _ W B1) as (x & B3). destruct (AO _ _ i1 B3 B2) as (cn & K1 & K2). unfold is_open in W3. rewrite K1, K2 in W3. exact W3.
Qed.
Lemma fine_bindb : forall (m : M bool) f, fine m -> rel wr m -> fine (f true) -> fine (bind m f).
Proof. intros m f Fm R F s b s' L H. bd H as a s1 H1. pose proof (Fm _ _ _ L H1). subst a. eapply F; [|exact H]. eapply linked_wr; [eapply R; eauto|exact L]. Qed.
Lemma fine_if : forall (c : bool) a b, fine a -> fine b -> fine (if c then a else b). Proof. intros []; auto. Qed.
End L.

Lemma still_nil : forall A, still (mseq (@nil (M A))).
Proof. intros A s v s' H. apply ret_ok in H. apply H. Qed.
Lemma still_cons : forall A (m : M A) l, still m -> still (mseq l) -> still (mseq (m :: l)).
Proof. intros A m l Sm Sl s v s' H. apply mseq_cons_ok in H. destruct H as (a & s1 & t & H1 & H2 & _). apply Sl in H2. apply Sm in H1. congruence. Qed.
Lemma still_ret : forall A (a : A), still (ret a). Proof. intros A a s v s' H. apply ret_ok in H. apply H. Qed.
Lemma still_cli : forall A g (f : client -> M A), (forall c, still (f c)) -> still (bind (cli g) f).
Proof. intros A g f F s v s' H. bd H as c s1 H1. apply cli_ok in H1. destruct H1 as [_ ->]. eapply F; eauto. Qed.
Lemma still_bind : forall A E (m : M A) (f : A -> M E), still m -> (forall c, still (f c)) -> still (bind m f).
Proof. intros A E m f Sm F s v s' H. bd H as c s1 H1. apply F in H. apply Sm in H1. congruence. Qed.
Lemma still_ID : forall g, still (aID g). Proof. intros g s v s' H. apply aID_ok in H. apply H. Qed.
Lemma still_Chan : forall g, still (aChan g). Proof. intros g s v s' H. apply aChan_ok in H. apply H. Qed.
Ltac stl := repeat first [apply still_nil|apply still_cons|apply still_ID|apply still_Chan|apply still_ret|apply still_cli; intro|
  match goal with |- still (bind _ _) => apply still_bind; [|intro] end|
  progress unfold aHops1, aInfo, aMask, aS, aD, aC, Client_Hops, Client_MyToken, Client_Info, Client_Mask].
#[local] Hint Extern 0 (still _) => stl : core.

(** ---- the functions succeed ---- *)
Section F.
Variables (i : connid) (h : handle) (fl : bytes) (rfc : bool).
Local Notation fine := (fine i h fl rfc).
Local Notation linked := (linked i h fl rfc).
Lemma fine_cwrite : forall f l, still (mseq l) -> fine (Conn_WriteStr i f l).
Proof.
  intros f l Q s b s' L H. destruct (Conn_WriteStr_ok _ _ _ _ _ _ H) as (vals & s1 & M & [W1 W2 W3 W4]). pose proof (Q _ _ _ M). subst s1.
  destruct L as [_ [(cn & C1 & C2 & _) _]]. unfold is_open in W3. rewrite C1, C2 in W3. exact W3.
Qed.
Lemma cw : forall f l s b s', linked s -> Conn_WriteStr i f l s = Ok b s' -> still (mseq l) -> b = true.
Proof. intros f l s b s' L H Q. exact (fine_cwrite f l Q _ _ _ L H). Qed.
Ltac fn := repeat first [apply fine_ret|apply fine_whenB|apply fine_if|apply fine_mall; [intro|intro; solve [rel_auto]]|apply fine_and; [|solve [rel_auto]|]|
  match goal with |- fine (IRC_WriteStrClient _ _ _) => unfold IRC_WriteStrClient end|
  apply fine_write; [solve [auto]]|match goal with |- fine (bind _ _) => apply fine_bind; [solve [rel_auto]|intro] end].
Lemma fine_Announce_Server : forall g, fine (Announce_Server h g).
Proof. intro g. unfold Announce_Server, server_args. fn. Qed.
Lemma fine_Send_List : forall ch l ty, fine (Send_List h ch l ty). Proof. intros. unfold Send_List. fn. Qed.
Lemma fine_Synchronize : fine (Synchronize_Lists h).
Proof. unfold Synchronize_Lists. fn; apply fine_Send_List. Qed.
Lemma fine_CHANINFO : forall ch, fine (Send_CHANINFO h ch). Proof. intros. unfold Send_CHANINFO. cbv zeta. fn. Qed.
Lemma wr_grow : forall s s', wr s s' -> grow s s'. Proof. exact wr_out. Qed.
Lemma fmt_server : forall a b c d, fmt (B "SERVER %s %d %d :%s") [FS a; FD b; FD c; FS d] = B "SERVER " ++ a ++ " "%char :: dec b ++ " "%char :: dec c ++ " "%char :: ":"%char :: d.
Proof. intros. change (B "SERVER " ++ a ++ " "%char :: dec b ++ " "%char :: dec c ++ " "%char :: ":"%char :: d ++ [] = B "SERVER " ++ a ++ " "%char :: dec b ++ " "%char :: dec c ++ " "%char :: ":"%char :: d). rewrite app_nil_r. reflexivity. Qed.
Lemma fmt_nick : forall a b c d e f g, fmt (B "NICK %s %d %s %s %d +%s :%s") [FS a; FD b; FS c; FS d; FD e; FS f; FS g] =
  B "NICK " ++ a ++ " "%char :: dec b ++ " "%char :: c ++ " "%char :: d ++ " "%char :: dec e ++ " "%char :: "+"%char :: f ++ " "%char :: ":"%char :: g.
Proof. intros. transitivity (B "NICK " ++ a ++ " "%char :: dec b ++ " "%char :: c ++ " "%char :: d ++ " "%char :: dec e ++ " "%char :: "+"%char :: f ++ " "%char :: ":"%char :: g ++ []); [reflexivity|rewrite app_nil_r; reflexivity]. Qed.
Lemma fmt_service : forall a b c d e, fmt (B "SERVICE %s %d * +%s %d :%s") [FS a; FD b; FS c; FD d; FS e] =
  B "SERVICE " ++ a ++ " "%char :: dec b ++ " "%char :: "*"%char :: " "%char :: "+"%char :: c ++ " "%char :: dec d ++ " "%char :: ":"%char :: e.
Proof. intros. transitivity (B "SERVICE " ++ a ++ " "%char :: dec b ++ " "%char :: "*"%char :: " "%char :: "+"%char :: c ++ " "%char :: dec d ++ " "%char :: ":"%char :: e ++ []); [reflexivity|rewrite app_nil_r; reflexivity]. Qed.
Lemma fmt_nick0 : forall a b, fmt (B "NICK %s :%d") [FS a; FD b] = B "NICK " ++ a ++ " "%char :: ":"%char :: dec b.
Proof. intros. transitivity (B "NICK " ++ a ++ " "%char :: ":"%char :: dec b ++ []); [reflexivity|rewrite app_nil_r; reflexivity]. Qed.
Lemma fmt_user0 : forall z a b c d, fmt (B ":%s USER %s %s %s :%s") [FS z; FS a; FS b; FS c; FS d] = prefixed z (B "USER " ++ a ++ " "%char :: b ++ " "%char :: c ++ " "%char :: ":"%char :: d).
Proof. intros. transitivity (prefixed z (B "USER " ++ a ++ " "%char :: b ++ " "%char :: c ++ " "%char :: ":"%char :: d ++ [])); [reflexivity|rewrite app_nil_r; reflexivity]. Qed.
Lemma seq_ok : forall A (m : M A) a l v s, m s = Ok a s -> mseq l s = Ok v s -> mseq (m :: l) s = Ok (a :: v) s.
Proof. intros A m a l v s H1 H2. cbn [mseq]. unfold bind. rewrite H1, H2. reflexivity. Qed.
Lemma hops_ok : forall g c s, assoc g (s_heap s) = Some c -> aHops1 g s = Ok (FD (cl_hops c + 1)) s.
Proof. intros g c s A. unfold aHops1, Client_Hops, bind, cli. rewrite A. reflexivity. Qed.
Lemma info_ok : forall g c s, assoc g (s_heap s) = Some c -> aInfo g s = Ok (FS (cl_info c)) s.
Proof. intros g c s A. unfold aInfo, Client_Info, bind, cli. rewrite A. reflexivity. Qed.
Lemma token_ok : forall g c s, assoc g (s_heap s) = Some c -> (t <- Client_MyToken g ;; ret (FD t)) s = Ok (FD (cl_mytoken c)) s.
Proof. intros g c s A. unfold Client_MyToken, bind, cli. rewrite A. reflexivity. Qed.
Lemma mask_ok : forall g c s, assoc g (s_heap s) = Some c -> cl_type c <> T_SERVER -> aMask g s = Ok (FS (firstn 115 (Spec.full_mask c))) s.
Proof. intros g c s A T. unfold aMask, Client_Mask, bind, cli. rewrite A. destruct (ctype_eqb (cl_type c) T_SERVER) eqn:E; [apply ctype_eqb_eq in E; contradiction|]. reflexivity. Qed.
(** whatever is written, its arguments have been computed *)
Lemma write_vals : forall to pref f l s b s', still (mseq l) -> IRC_WriteStrClientPrefix to pref f l s = Ok b s' -> exists v, mseq l s = Ok v s.
Proof. intros to pref f l s b s' Q H. destruct (WriteStrClientPrefix_ok _ _ _ _ _ _ _ H) as (v2 & s1 & nh & c1 & i1 & p & s2 & M1 & _). pose proof (Q _ _ _ M1). subst. eauto. Qed.
Lemma seq_id : forall g l v s, mseq (aID g :: l) s = Ok v s -> exists c, assoc g (s_heap s) = Some c /\ aID g s = Ok (FS (id_of c)) s.
Proof. intros g l v s H. apply mseq_cons_ok in H. destruct H as (a & s1 & t & H1 & _ & _). pose proof (aID_ok _ _ _ _ H1) as [-> (c & A & ->)]. eauto. Qed.

Lemma write_vals' : forall to pref f l s b s', IRC_WriteStrClientPrefix to pref f l s = Ok b s' -> still (mseq l) -> exists v, mseq l s = Ok v s.
Proof. intros. eapply write_vals; eauto. Qed.

(** ---- servers ---- *)
Lemma server_ok : forall g d me s b s', linked s -> assoc g (s_heap s) = Some d -> assoc This_Server (s_heap s) = Some me -> Announce_Server h g s = Ok b s' ->
  b = true /\ exists src, server_via s me d src /\ sent s s' i (prefixed src (server_text d)).
Proof.
  intros g d me s b s' L G Me H. pose proof (fine_Announce_Server g _ _ _ L H) as ->. split; auto. unfold Announce_Server in H. bd H as o s1 H1. same H1.
  apply and_then_ok in H. destruct H as (x & s1 & H1 & [[-> H]|[_ [_ E]]]); [|discriminate E].
  assert (W : wr s s1) by (unfold server_args in H1; xlast H1). pose proof (linked_wr _ _ _ _ _ _ W L) as L1. destruct (wr_cli _ _ _ _ W G) as (y & G1). destruct (wr_cli _ _ _ _ W Me) as (z & Me1).
  bd H as hp s2 H2. unfold Client_Hops in H2. bd H2 as c1 s3 H3. apply cli_ok in H3. destruct H3 as [H3 ->]. rewrite G1 in H3. injection H3 as <-. apply ret_ok in H2. destruct H2 as [-> ->]. cbn [cl_hops set_cl_cloaked] in H.
  bd H as src s2 H2. assert (V : s2 = s1 /\ forall p0, assoc src (s_heap s1) = Some p0 -> server_via s me d (id_of p0)).
  { destruct (Z.eqb_spec (cl_hops d) 1) as [E1|E1].
    - apply ret_ok in H2. destruct H2 as [-> ->]. split; auto. intros p0 P0. rewrite Me1 in P0. injection P0 as <-. left. auto.
    - bd H2 as o2 s3 H3. unfold Client_TopServer in H3. bd H3 as c1 s4 H4. apply cli_ok in H4. destruct H4 as [H4 ->]. rewrite G1 in H4. injection H4 as <-. apply ret_ok in H3. destruct H3 as [-> ->]. apply nonnull_ok in H2. destruct H2 as [H2 ->]. split; auto.
      cbn [cl_topserver set_cl_cloaked] in H2. intros p0 P0. right. split; auto. destruct (wr_cli_back _ _ _ _ W P0) as (p1 & x & P1 & ->). exists src, p1. split; auto. }
  destruct V as [-> V]. assert (ST : still (mseq (server_args g))) by (unfold server_args; auto). destruct (write_vals _ _ _ _ _ _ _ ST H) as (vals & M). pose proof M as M0. unfold server_args in M. destruct (seq_id _ _ _ _ M) as (c1 & Q1 & Q2). rewrite G1 in Q1. injection Q1 as <-.
  assert (MV : mseq (server_args g) s1 = Ok [FS (id_of d); FD (cl_hops d + 1); FD (cl_mytoken d); FS (cl_info d)] s1).
  { unfold server_args. apply seq_ok; [exact Q2|]. apply seq_ok; [exact (hops_ok _ _ _ G1)|]. apply seq_ok; [exact (token_ok _ _ _ G1)|]. apply seq_ok; [exact (info_ok _ _ _ G1)|reflexivity]. }
  destruct (link_write _ _ _ _ _ _ _ _ _ _ _ L1 MV H) as (_ & p & P & E). rewrite fmt_server in E. 
  exists (id_of p). split; [apply V; exact P|]. eapply (sent_mid s s1 s' s'); [apply wr_out; exact W|exact E|exists []; reflexivity].
Qed.

(** ---- users and services ---- *)
Definition a_usr (c : client) : Prop := cl_type c = T_USER \/ cl_type c = T_SERVICE.
Lemma user_ok : forall g d me s b s', linked s -> assoc g (s_heap s) = Some d -> a_usr d -> assoc This_Server (s_heap s) = Some me -> Client_Announce h This_Server g s = Ok b s' ->
  b = true /\ exists c line, assoc h (s_heap s) = Some c /\ user_line s c d rfc me line /\ sent s s' i line.
Proof.
  intros g d me s b s' L G Ud Me H. unfold Client_Announce in H. bd H as u s1 H1. apply cli_ok in H1. destruct H1 as [U ->]. rewrite G in U. injection U as <-. bd H as t s1 H1. apply cli_ok in H1. destruct H1 as [T ->].
  pose proof L as [_ [(cn & C1 & C2 & C3) (c & A1 & A2 & A3 & A4 & A5)]]. rewrite A1 in T. injection T as <-. rewrite A2 in H.
  bd H as un s1 H1. unfold Client_User in H1. bd H1 as c1 s2 H2. apply cli_ok in H2. destruct H2 as [H2 ->]. rewrite G in H2. injection H2 as <-. apply ret_ok in H1. destruct H1 as [Eu ->]. 
  bd H as j s1 H1. apply nonnull_ok in H1. destruct H1 as [H1 ->]. injection H1 as <-. bd H as cn1 s1 H1. apply con_ok in H1. destruct H1 as [-> H1]. destruct H1 as [H1|[H1 _]]; [|congruence]. rewrite C1 in H1. injection H1 as <-. rewrite C3 in H.
  bd H as ok s1 H1.
  assert (Q : ok = true /\ (wr s s1) /\ exists line, user_line s c d rfc me line /\ sent s s1 i line).
  { assert (ER : rfc = true \/ rfc = false) by (destruct rfc; auto). destruct ER as [ER|ER]; rewrite ER in H1.
    - bd H1 as a s2 H2. pose proof (cw _ _ _ _ _ L H2 ltac:(auto)) as ->. cbn [negb] in H1. assert (W2 : wr s s2) by xlast H2. pose proof (linked_wr _ _ _ _ _ _ W2 L) as L2.
      destruct (Conn_WriteStr_ok _ _ _ _ _ _ H2) as (vals & s3 & M & [_ _ _ OU]). cbn [app] in OU.
      apply mseq_cons_ok in M. destruct M as (a1 & s4 & v1 & M1 & M & ->). apply aID_ok in M1. destruct M1 as [-> (c1 & D1 & ->)]. rewrite G in D1. injection D1 as <-.
      apply mseq_cons_ok in M. destruct M as (a1 & s4 & v2 & M1 & M & ->). rewrite (hops_ok _ _ _ G) in M1. injection M1 as <- <-. apply ret_ok in M. destruct M as [-> ->]. rewrite fmt_nick0 in OU.
      bd H1 as in_ s4 H3. assert (I4 : s4 = s2 /\ cl_introducer d = Some in_). { unfold Client_Introducer in H3. bd H3 as c1 s5 H5. apply cli_ok in H5. destruct H5 as [H5 ->]. destruct (wr_cli _ _ _ _ W2 G) as (x & G2). rewrite G2 in H5. injection H5 as <-. apply nonnull_ok in H3. destruct H3 as [H3 ->]. auto. } destruct I4 as [-> I4].
      bd H1 as a s4 H4. pose proof (cw _ _ _ _ _ L2 H4 ltac:(auto)) as ->. cbn [negb] in H1. assert (W4 : wr s2 s4) by xlast H4. pose proof (linked_wr _ _ _ _ _ _ W4 L2) as L4.
      assert (P : exists p, assoc in_ (s_heap s) = Some p).
      { destruct (Conn_WriteStr_ok _ _ _ _ _ _ H4) as (vals & s5 & M & _). do 3 (apply mseq_cons_ok in M; destruct M as (? & ? & ? & M1 & M & ->); (apply aID_ok in M1 || apply aS_ok in M1); destruct M1 as [-> _]).
        apply mseq_cons_ok in M. destruct M as (a1 & s6 & v1 & M1 & M & ->). apply aID_ok in M1. destruct M1 as [_ (p & P & _)]. destruct (wr_cli_back _ _ _ _ W2 P) as (p0 & xx & P0 & _). eauto. }
      destruct P as (p & P).
      assert (W5 : wr s4 s1) by (destruct (negb (beq (cl_modes d) [])); xlast H1).
      assert (OK : ok = true). { destruct (negb (beq (cl_modes d) [])); [exact (cw _ _ _ _ _ L4 H1 ltac:(auto))|apply ret_ok in H1; apply H1]. }
      split; auto. split; [etransitivity; [exact W2|etransitivity; eauto]|]. exists (nick_text0 d). split; [exists in_, p; rewrite ER; auto|].
      eapply (sent_mid s s s2 s1); [exists []; reflexivity|exact OU|]. apply wr_out. etransitivity; eauto.
    - bd H1 as in_ s2 H2. assert (I4 : s2 = s /\ cl_introducer d = Some in_). { unfold Client_Introducer in H2. bd H2 as c1 s5 H5. apply cli_ok in H5. destruct H5 as [H5 ->]. rewrite G in H5. injection H5 as <-. apply nonnull_ok in H2. destruct H2 as [H2 ->]. auto. } destruct I4 as [-> I4].
      bd H1 as tok s2 H6. unfold Client_MyToken in H6. bd H6 as p s3 H7. apply cli_ok in H7. destruct H7 as [P ->]. apply ret_ok in H6. destruct H6 as [-> ->].
      assert (W : wr s s1) by (destruct (ctype_eqb (cl_type d) T_SERVICE && strchr0 "S" (cl_flags c)); xlast H1).
      assert (NS : cl_type d <> T_SERVER) by (destruct Ud; congruence).
      assert (SM : strchr0 "S" (cl_flags c) = memb "S" (cl_flags c)) by (apply strchr0_memb; discriminate). rewrite SM in H1.
      destruct (ctype_eqb (cl_type d) T_SERVICE && memb "S" (cl_flags c)) eqn:SV.
      + assert (MV : mseq [aMask g; aD (cl_mytoken p); aS (cl_modes d); aHops1 g; aS (cl_info d)] s = Ok [FS (firstn 115 (Spec.full_mask d)); FD (cl_mytoken p); FS (cl_modes d); FD (cl_hops d + 1); FS (cl_info d)] s).
        { apply seq_ok; [exact (mask_ok _ _ _ G NS)|]. apply seq_ok; [reflexivity|]. apply seq_ok; [reflexivity|]. apply seq_ok; [exact (hops_ok _ _ _ G)|]. apply seq_ok; reflexivity. }
        destruct (link_write _ _ _ _ _ _ _ _ _ _ _ L MV H1) as (-> & pm & Pm & E). rewrite Me in Pm. injection Pm as <-. rewrite fmt_service in E. split; auto. split; auto. eexists. split; [exists in_, p; rewrite ER, SV; split; [exact I4|split; [exact P|reflexivity]]|].
        eapply (sent_mid s s s1 s1); [exists []; reflexivity|exact E|exists []; reflexivity].
      + destruct (write_vals' h This_Server _ _ _ _ _ H1 ltac:(auto)) as (vals & M). destruct (seq_id _ _ _ _ M) as (c1 & Q1 & Q2). rewrite G in Q1. injection Q1 as <-.
        assert (MV : mseq [aID g; aHops1 g; aS un; aS (cl_host d); aD (cl_mytoken p); aS (cl_modes d); aS (cl_info d)] s = Ok [FS (id_of d); FD (cl_hops d + 1); FS un; FS (cl_host d); FD (cl_mytoken p); FS (cl_modes d); FS (cl_info d)] s).
        { apply seq_ok; [exact Q2|]. apply seq_ok; [exact (hops_ok _ _ _ G)|]. repeat (apply seq_ok; [reflexivity|]). reflexivity. }
        destruct (link_write _ _ _ _ _ _ _ _ _ _ _ L MV H1) as (-> & pm & Pm & E). rewrite Me in Pm. injection Pm as <-. rewrite fmt_nick in E. split; auto. split; auto. eexists. split; [exists in_, p; rewrite ER, SV; split; [exact I4|split; [exact P|reflexivity]]|].
        assert (EU : un = shown_user d) by (rewrite Eu; unfold shown_user; destruct (cl_user d); reflexivity). rewrite EU in E.
        eapply (sent_mid s s s1 s1); [exists []; reflexivity|exact E|exists []; reflexivity]. }
  destruct Q as (-> & W & line & UL & SE). cbn [negb] in H. pose proof (linked_wr _ _ _ _ _ _ W L) as L1.
  assert (K : b = true /\ wr s1 s').
  { split.
    - match type of H with ?m _ = _ => assert (F : fine m) end; [|exact (F _ _ _ L1 H)]. apply fine_if; [|apply fine_ret]. apply fine_bindb; [destruct (cl_cloaked d); fn|destruct (cl_cloaked d); rel_auto|]. cbn [negb]. destruct (cl_account d); fn.
    - match type of H with ?m _ = _ => assert (R : rel wr m) end; [|exact (R _ _ _ H)]. destruct (cl_cloaked d); destruct (cl_account d); rel_auto. }
  destruct K as [-> W1]. split; auto. exists c, line. split; auto. split; auto. eapply (sent_grow s s s1 s'); [reflexivity|exact SE|apply wr_out; exact W1].
Qed.

(** ---- channels ---- *)
Lemma cat_fits : forall a b, List.length a + List.length b <= 512 -> cat a b = a ++ b.
Proof.
  intros a b L. unfold cat, strlcat. change COMMAND_LEN with 513. destruct (Nat.ltb_spec (List.length a) (513 - 1)).
  - cbn [Nat.ltb Nat.leb andb]. destruct (Nat.leb_spec (513 - List.length a) (List.length b)); [lia|reflexivity].
  - destruct b; [|cbn in L; lia]. rewrite andb_false_r, app_nil_r. reflexivity.
Qed.
Lemma mark_len : forall ms m k, List.length (if_has ms m k) <= 1. Proof. intros ms m k. unfold if_has. destruct (memb m ms); cbn; lia. Qed.
Lemma modes_ok : forall ch g s ms s', Channel_UserModes ch g s = Ok ms s' -> s' = s /\ exists m, find (is_mb ch g) (s_members s) = Some m /\ ms = mb_modes m.
Proof.
  intros ch g s ms s' H. unfold Channel_UserModes in H. bd H as o s1 H1. unfold Get_Cl2Chan in H1. rdgets H1. bd H as m s1 H1. apply nonnull_ok in H1. destruct H1 as [E ->]. apply ret_ok in H. destruct H as [-> ->]. split; auto. exists m. auto.
Qed.
Lemma nick_ok : forall xop ch g str s r s' d, assoc g (s_heap s) = Some d -> List.length (id_of d) < 32 -> List.length str <= 474 -> njoin_nick xop ch g str s = Ok r s' ->
  s' = s /\ exists m, find (is_mb ch g) (s_members s) = Some m /\ r = str ++ entry xop (mb_modes m) d.
Proof.
  intros xop ch g str s r s' d A Ld Ls H. unfold njoin_nick in H. bd H as ms s1 H1. apply modes_ok in H1. destruct H1 as [-> (m & F & ->)]. bd H as id s1 H1. apply Client_ID_ok in H1. destruct H1 as [-> (c & A' & ->)]. rewrite A in A'. injection A' as <-.
  cbv zeta in H. apply ret_ok in H. destruct H as [-> ->]. split; auto. exists m. split; auto. unfold entry. set (ms := mb_modes m).
  pose proof (mark_len ms "q" "~"). pose proof (mark_len ms "a" "&"). pose proof (mark_len ms "o" "@"). pose proof (mark_len ms "h" "%"). pose proof (mark_len ms "v" "+").
  assert (HA : forall c (p : ascii) s0, List.length s0 + 1 <= 512 -> (if memb c ms then cat s0 (B (String p EmptyString)) else s0) = s0 ++ if_has ms c p).
  { intros c p s0 L0. unfold if_has. destruct (memb c ms); [apply cat_fits; exact L0|rewrite app_nil_r; reflexivity]. }
  destruct xop.
  - rewrite (HA "q"%char "~"%char) by lia. rewrite (HA "a"%char "&"%char) by (rewrite ?app_length; lia). rewrite (HA "o"%char "@"%char) by (rewrite ?app_length; lia). rewrite (HA "h"%char "%"%char) by (rewrite ?app_length; lia). rewrite (HA "v"%char "+"%char) by (rewrite ?app_length; lia).
    rewrite cat_fits by (rewrite ?app_length; lia). rewrite <- ?app_assoc. reflexivity.
  - rewrite (HA "o"%char "@"%char) by lia. rewrite (HA "v"%char "+"%char) by (rewrite ?app_length; lia). rewrite cat_fits by (rewrite ?app_length; lia). rewrite <- ?app_assoc. reflexivity.
Qed.
Lemma commas_snoc : forall l e, commas (l ++ [e]) = commas l ++ (match l with [] => [] | _ => [","%char] end) ++ e.
Proof.
  induction l as [|a l IH]; intro e; [reflexivity|]. destruct l as [|b l]; [reflexivity|]. cbn [app commas] in *. rewrite IH. rewrite <- !app_assoc. reflexivity.
Qed.
Definition no_colon (x : bytes) : Prop := exists r y, x = r ++ [y] /\ y <> ":"%char.
Lemma last_snoc : forall (a : bytes) y, last_char (a ++ [y]) = y. Proof. intros. unfold last_char. apply last_last. Qed.
Lemma entry_colon : forall xop ms d, no_colon (cl_id d) -> no_colon (entry xop ms d).
Proof. intros xop ms d (r & y & E & N). unfold entry, id_of. rewrite E. destruct (r ++ [y]) eqn:Z; [destruct r; discriminate Z|]. rewrite <- Z. rewrite !app_assoc. eexists _, y. split; [reflexivity|auto]. Qed.
Lemma commas_end : forall l, Forall no_colon l -> l <> [] -> no_colon (commas l).
Proof.
  intros l. induction l as [|e l IH] using rev_ind; intros F N; [contradiction|]. rewrite commas_snoc. apply Forall_app in F. destruct F as [_ F]. inversion F as [|? ? (r & y & E & Ny)]; subst. rewrite !app_assoc. eexists _, y. split; [reflexivity|auto].
Qed.
Lemma last_commas : forall st l, Forall no_colon l -> l <> [] -> Ascii.eqb (last_char (st ++ commas l)) ":" = false.
Proof. intros st l F N. destruct (commas_end l F N) as (r & y & E & Ny). rewrite E, app_assoc, last_snoc. destruct (Ascii.eqb_spec y ":"); [contradiction|reflexivity]. Qed.
Definition start_of (name : bytes) : bytes := B "NJOIN " ++ name ++ B " :".
Lemma start_last : forall name, last_char (start_of name) = ":"%char.
Proof. intro name. unfold start_of. change (B " :") with ([" "%char] ++ [":"%char]). rewrite !app_assoc. apply last_snoc. Qed.
Lemma entry_len : forall xop ms d, List.length (entry xop ms d) <= 5 + List.length (id_of d).
Proof.
  intros xop ms d. unfold entry. pose proof (mark_len ms "q" "~"). pose proof (mark_len ms "a" "&"). pose proof (mark_len ms "o" "@"). pose proof (mark_len ms "h" "%"). pose proof (mark_len ms "v" "+").
  destruct xop; rewrite ?app_length; cbn [List.length app]; lia.
Qed.
Lemma fmt_s : forall a, fmt (B "%s") [FS a] = a. Proof. intros. transitivity (a ++ []); [reflexivity|apply app_nil_r]. Qed.
Lemma njoin_is : forall name l, start_of name ++ commas l = njoin_text name l.
Proof. intros name l. unfold start_of, njoin_text. rewrite <- !app_assoc. reflexivity. Qed.

Definition plain (N : nat) (s : state) (g : handle) : Prop := exists d, assoc g (s_heap s) = Some d /\ no_colon (cl_id d) /\ List.length (id_of d) <= N.
Lemma plain_wr : forall N s s' g, wr s s' -> plain N s g -> plain N s' g.
Proof. intros N0 s s' g W (d & A & N & L). destruct (wr_cli _ _ _ _ W A) as (x & A'). exists (set_cl_cloaked x d). auto. Qed.
(** the entry of a member *)
Definition entry_of (s : state) (xop : bool) (ch : chandle) (g : handle) (e : bytes) : Prop :=
  exists d m, assoc g (s_heap s) = Some d /\ find (is_mb ch g) (s_members s) = Some m /\ e = entry xop (mb_modes m) d.
Lemma entry_wr : forall s s' xop ch g e, wr s s' -> entry_of s xop ch g e -> entry_of s' xop ch g e.
Proof. intros s s' xop ch g e W (d & m & A & F & ->). destruct (wr_cli _ _ _ _ W A) as (x & A'). exists (set_cl_cloaked x d), m. split; auto. rewrite (w_members _ _ (wr_same _ _ W)). auto. Qed.
Definition told (N : nat) (s s' : state) (me : client) (name e : bytes) : Prop := exists l, In e l /\ List.length (njoin_text name l) <= 479 + N /\ sent s s' i (prefixed (id_of me) (njoin_text name l)).
Lemma told_grow : forall N s a b s' me name e, grow s a -> told N a b me name e -> grow b s' -> told N s s' me name e.
Proof. intros N s a b s' me name e G1 (l & I & Ll & T) G2. exists l. split; auto. split; auto. eapply sent_grow; eauto. Qed.
Lemma write_str : forall s me str b s', linked s -> assoc This_Server (s_heap s) = Some me -> IRC_WriteStrClient h "%s" [aS str] s = Ok b s' -> b = true /\ wr s s' /\ s_out s' = (i, wire (prefixed (id_of me) str)) :: s_out s.
Proof.
  intros s me str b s' L Me H. assert (W : wr s s') by xlast H. unfold IRC_WriteStrClient in H. destruct (link_write _ _ _ _ _ _ _ _ [FS str] _ _ L (eq_refl : mseq [aS str] s = Ok [FS str] s) H) as (-> & p & P & E). rewrite Me in P. injection P as <-. rewrite fmt_s in E. auto.
Qed.
Lemma members_ok : forall N ch xop name, N < 32 -> List.length name < 51 -> forall l acc s r s' me, linked s -> assoc This_Server (s_heap s) = Some me -> (forall g, In g l -> plain N s g) -> Forall no_colon acc ->
  List.length (start_of name ++ commas acc) <= 473 -> announce_members h ch true xop name (start_of name) l (start_of name ++ commas acc) s = Ok r s' ->
  wr s s' /\ exists acc', r = Some (start_of name ++ commas acc') /\ Forall no_colon acc' /\ List.length (start_of name ++ commas acc') <= 473 /\
  forall e, In e acc \/ (exists g, In g l /\ entry_of s xop ch g e) -> In e acc' \/ told N s s' me name e.
Proof.
  intros N ch xop name LN Ln l. induction l as [|g l IH]; intros acc s r s' me L Me Pl Fa La H; cbn [announce_members] in H; cbv zeta in H.
  - apply ret_ok in H. destruct H as [-> ->]. split; [reflexivity|]. exists acc. split; auto. split; auto. split; auto. intros e [I|(g & [] & _)]. auto.
  - bd H as str s1 H1.
    assert (E0 : (if Ascii.eqb (last_char (start_of name ++ commas acc)) ":" then start_of name ++ commas acc else cat (start_of name ++ commas acc) (B ",")) = start_of name ++ commas acc ++ match acc with [] => [] | _ => [","%char] end).
    { destruct acc as [|a acc]; [cbn [commas]; rewrite !app_nil_r, start_last; reflexivity|]. rewrite last_commas; [|exact Fa|discriminate]. rewrite cat_fits; [rewrite <- app_assoc; reflexivity|]. change (List.length (B ",")) with 1. lia. }
    match type of H1 with njoin_nick _ _ _ ?x _ = _ => assert (E1 : x = start_of name ++ commas acc ++ match acc with [] => [] | _ => [","%char] end) by exact E0; rewrite E1 in H1; clear E1 end. clear E0. destruct (Pl g ltac:(left; reflexivity)) as (d & A & Nd & Ld).
    assert (Lx : List.length (start_of name ++ commas acc ++ match acc with [] => [] | _ => [","%char] end) <= 474) by (rewrite !app_length in *; destruct acc; cbn [List.length] in *; lia).
    destruct (nick_ok _ _ _ _ _ _ _ _ A (Nat.le_lt_trans _ _ _ Ld LN) Lx H1) as [-> (m & F & E)]. clear H1.
    set (e0 := entry xop (mb_modes m) d) in *. assert (Es : str = start_of name ++ commas (acc ++ [e0])) by (rewrite E, commas_snoc, <- !app_assoc; reflexivity). clear E. subst str.
    assert (Fa' : Forall no_colon (acc ++ [e0])) by (apply Forall_app; split; auto; constructor; [apply entry_colon; exact Nd|constructor]).
    assert (EN : forall e, entry_of s xop ch g e -> e = e0). { intros e (d' & m' & A' & F' & ->). rewrite A in A'. injection A' as <-. rewrite F in F'. injection F' as <-. reflexivity. }
    destruct (Nat.ltb_spec (COMMAND_LEN - CLIENT_NICK_LEN - 8) (List.length (start_of name ++ commas (acc ++ [e0])))) as [Lf|Lf]; change (COMMAND_LEN - CLIENT_NICK_LEN - 8) with 473 in Lf.
    + bd H as ok s1 H1. destruct (write_str _ _ _ _ _ L Me H1) as (-> & W1 & O1). cbn [negb] in H. destruct (wr_cli _ _ _ _ W1 Me) as (z & Me1).
      assert (St : List.length (start_of name ++ commas []) <= 473) by (unfold start_of; cbn [commas]; rewrite !app_length; cbn; lia). rewrite <- (app_nil_r (start_of name)) in H at 2. change (start_of name ++ []) with (start_of name ++ commas []) in H.
      destruct (IH [] s1 r s' _ (linked_wr _ _ _ _ _ _ W1 L) Me1) with (4 := H) as (W2 & acc' & R & Fc & Lc & K); auto.
      { intros x Ix. eapply plain_wr; [exact W1|]. apply Pl. right. exact Ix. }
      split; [etransitivity; eauto|]. exists acc'. split; auto. split; auto. split; auto. intros e D.
      assert (D' : In e (acc ++ [e0]) \/ exists x, In x l /\ entry_of s xop ch x e). { destruct D as [D|(x & [<- |Ix] & D)]; [left; apply in_or_app; auto|left; apply in_or_app; right; left; symmetry; apply EN; exact D|right; eauto]. }
      destruct D' as [D'|(x & Ix & D')].
      * right. exists (acc ++ [e0]). split; auto. rewrite <- njoin_is. split. { rewrite commas_snoc, !app_assoc. rewrite app_assoc in Lx. rewrite app_length. pose proof (entry_len xop (mb_modes m) d) as Le. fold e0 in Le. lia. } eapply (sent_mid s s s1 s'); [exists []; reflexivity|exact O1|apply wr_out; exact W2].
      * destruct (K e) as [K1|K1]; [right; exists x; split; auto; eapply entry_wr; eauto|auto|]. right. eapply (told_grow N s s1 s' s' me); [apply wr_out; exact W1|exact K1|reflexivity].
    + destruct (IH (acc ++ [e0]) s r s' me L Me) with (4 := H) as (W2 & acc' & R & Fc & Lc & K); auto. { intros x Ix. apply Pl. right. exact Ix. }
      split; auto. exists acc'. split; auto. split; auto. split; auto. intros e D. apply K. destruct D as [D|(x & [<- |Ix] & D)]; [left; apply in_or_app; auto|left; apply in_or_app; right; left; symmetry; apply EN; exact D|right; eauto].
Qed.

Lemma start_len : forall name, List.length (start_of name) = 8 + List.length name.
Proof. intro name. unfold start_of. rewrite !app_length. change (List.length (B "NJOIN ")) with 6. change (List.length (B " :")) with 2. lia. Qed.
Lemma start_cut : forall name, List.length name < 51 -> firstn (COMMAND_LEN - 1) (start_of name) = start_of name.
Proof. intros name L. apply firstn_all2. rewrite start_len. change (COMMAND_LEN - 1) with 512. lia. Qed.
Lemma fmt_join : forall a, fmt (B "JOIN %s") [FS a] = B "JOIN " ++ a. Proof. intros. transitivity (B "JOIN " ++ a ++ []); [reflexivity|rewrite app_nil_r; reflexivity]. Qed.
Lemma modes_still : forall ch g, still (Channel_UserModes ch g). Proof. intros ch g s v s' H. apply modes_ok in H. apply H. Qed.
Lemma joins_ok : forall ch xop name st l str s r s', linked s -> announce_members h ch false xop name st l str s = Ok r s' ->
  wr s s' /\ r = Some str /\ forall g, In g l -> exists d, assoc g (s_heap s) = Some d /\ sent s s' i (prefixed (id_of d) (B "JOIN " ++ name)).
Proof.
  intros ch xop name st l. induction l as [|g l IH]; intros str s r s' L H; cbn [announce_members] in H.
  - apply ret_ok in H. destruct H as [-> ->]. split; [reflexivity|]. split; auto. intros g [].
  - bd H as ok s1 H1. assert (W1 : wr s s1) by xlast H1.
    assert (F : fine ((IRC_WriteStrClientPrefix h g "JOIN %s" [aS name]) >>> (ms <- Channel_UserModes ch g ;; mall ms (fun m => IRC_WriteStrClientPrefix h g "MODE %s +%c %s" [aS name; aC m; aID g])))) by fn.
    pose proof (F _ _ _ L H1) as ->. cbn [negb] in H. destruct (IH _ _ _ _ (linked_wr _ _ _ _ _ _ W1 L) H) as (W2 & R & K). split; [etransitivity; eauto|]. split; auto.
    intros x [<- |Ix].
    + apply and_then_ok in H1. destruct H1 as (b & s2 & H2 & [[-> H3]|[_ [_ E]]]); [|discriminate E]. assert (W3 : wr s2 s1) by xlast H3.
      destruct (link_write _ _ _ _ _ _ _ _ [FS name] _ _ L (eq_refl : mseq [aS name] s = Ok [FS name] s) H2) as (_ & d & D & O). rewrite fmt_join in O. exists d. split; auto. eapply (sent_mid s s s2 s'); [exists []; reflexivity|exact O|apply wr_out; etransitivity; eauto].
    + destruct (K x Ix) as (d' & D' & T). destruct (wr_cli_back _ _ _ _ W1 D') as (d & z & D & ->). exists d. split; auto. eapply (sent_grow s s1 s' s'); [apply wr_out; exact W1|exact T|reflexivity].
Qed.
Definition members_of (s : state) (ch : chandle) : list handle := map mb_client (filter (fun m => Nat.eqb (mb_chan m) ch) (s_members s)).
Definition xop : bool := memb "X" fl.
Lemma channel_ok : forall N ch k me s b s', N < 32 -> linked s -> assoc ch (s_chans s) = Some k -> List.length (ch_name k) < 51 -> assoc This_Server (s_heap s) = Some me -> (forall g, In g (members_of s ch) -> plain N s g) -> Announce_Channel h ch s = Ok b s' ->
  b = true /\ forall g, In g (members_of s ch) ->
    if rfc then exists d, assoc g (s_heap s) = Some d /\ sent s s' i (prefixed (id_of d) (B "JOIN " ++ ch_name k))
    else forall e, entry_of s xop ch g e -> told N s s' me (ch_name k) e.
Proof.
  intros N ch k me s b s' LN L Ck Lk Me Pl H. unfold Announce_Channel in H. pose proof L as [_ [(cn & C1 & C2 & C3) (c & A1 & A2 & A3 & A4 & A5)]].
  bd H as o s1 H1. apply Client_Conn_ok in H1. destruct H1 as (-> & c1 & D1 & ->). rewrite A1 in D1. injection D1 as <-. rewrite A2 in H. bd H as j s1 H1. apply nonnull_ok in H1. destruct H1 as [H1 ->]. injection H1 as <-.
  bd H as cn1 s1 H1. apply con_ok in H1. destruct H1 as [-> H1]. destruct H1 as [H1|[H1 _]]; [|congruence]. rewrite C1 in H1. injection H1 as <-. rewrite C3 in H.
  bd H as xo s1 H1. unfold Client_HasFlag in H1. bd H1 as c1 s2 H2. apply cli_ok in H2. destruct H2 as [H2 ->]. rewrite A1 in H2. injection H2 as <-. apply ret_ok in H1. destruct H1 as [Ex ->]. rewrite strchr0_memb in Ex by discriminate. rewrite A4 in Ex. fold xop in Ex. subst xo.
  bd H as nm s1 H1. unfold Channel_Name in H1. bd H1 as k1 s2 H2. apply chan_ok in H2. destruct H2 as [H2 ->]. rewrite Ck in H2. injection H2 as <-. apply ret_ok in H1. destruct H1 as [-> ->].
  bd H as l s1 H1. unfold Members in H1. rdgets H1. cbv zeta in H. fold (members_of s ch) in H.
  assert (ST : firstn (COMMAND_LEN - 1) (B "NJOIN " ++ ch_name k ++ B " :") = start_of (ch_name k)). exact (start_cut _ Lk).
  match type of H with context [firstn (COMMAND_LEN - 1) ?x] => change (firstn (COMMAND_LEN - 1) x) with (firstn (COMMAND_LEN - 1) (B "NJOIN " ++ ch_name k ++ B " :")) in H end. rewrite ST in H. clear ST.
  bd H as r s1 H1. assert (ER : rfc = true \/ rfc = false) by (destruct rfc; auto). destruct ER as [ER|ER]; rewrite ER in H1 |- *; cbn [negb] in H1.
  - destruct (joins_ok _ _ _ _ _ _ _ _ _ L H1) as (W & -> & K). rewrite start_last in H. cbn in H. apply ret_ok in H. destruct H as [-> ->]. auto.
  - rewrite <- (app_nil_r (start_of (ch_name k))) in H1 at 2. change (start_of (ch_name k) ++ []) with (start_of (ch_name k) ++ commas []) in H1.
    assert (St : List.length (start_of (ch_name k) ++ commas []) <= 473) by (unfold start_of; cbn [commas]; rewrite !app_length; cbn; lia).
    destruct (members_ok N ch xop (ch_name k) LN Lk _ _ _ _ _ _ L Me Pl (Forall_nil _) St H1) as (W & acc & -> & Fa & La & K). destruct acc as [|a acc].
    + cbn [commas] in H. rewrite app_nil_r, start_last in H. cbn in H. apply ret_ok in H. destruct H as [-> ->]. split; auto. intros g Ig e Ee. destruct (K e) as [[]|K1]; eauto.
    + rewrite last_commas in H; [|exact Fa|discriminate]. destruct (wr_cli _ _ _ _ W Me) as (z & Me1). destruct (write_str _ _ _ _ _ (linked_wr _ _ _ _ _ _ W L) Me1 H) as (-> & W1 & O). split; auto. intros g Ig e Ee. destruct (K e) as [K1|K1]; eauto.
      * exists (a :: acc). split; auto. rewrite <- njoin_is. split; [lia|]. eapply (sent_mid s s1 s' s'); [apply wr_out; exact W|exact O|exists []; reflexivity].
      * eapply (told_grow N s s s1 s'); [reflexivity|exact K1|apply wr_out; exact W1].
Qed.

(** ---- the settings and lists of a channel ---- *)
Lemma write_at : forall s me f l vals b s', linked s -> assoc This_Server (s_heap s) = Some me -> mseq l s = Ok vals s -> IRC_WriteStrClient h f l s = Ok b s' -> s_out s' = (i, wire (prefixed (id_of me) (fmt (B f) vals))) :: s_out s.
Proof. intros s me f l vals b s' L Me M H. unfold IRC_WriteStrClient in H. destruct (link_write _ _ _ _ _ _ _ _ _ _ _ L M H) as (_ & p & P & E). rewrite Me in P. injection P as <-. exact E. Qed.
Lemma sent_one : forall s s' t, s_out s' = (i, wire t) :: s_out s -> sent s s' i t.
Proof. intros s s' t E. eapply (sent_mid s s s' s'); [exists []; reflexivity|exact E|exists []; reflexivity]. Qed.
Lemma chan_arg : forall ch k s, assoc ch (s_chans s) = Some k -> aChan ch s = Ok (FS (ch_name k)) s.
Proof. intros ch k s A. unfold aChan, Channel_Name, bind, chan. rewrite A. reflexivity. Qed.
Lemma fmt_info0 : forall a b, fmt (B "CHANINFO %s +%s") [FS a; FS b] = B "CHANINFO " ++ a ++ " "%char :: "+"%char :: b.
Proof. intros. transitivity (B "CHANINFO " ++ a ++ " "%char :: "+"%char :: b ++ []); [reflexivity|rewrite app_nil_r; reflexivity]. Qed.
Lemma fmt_info1 : forall a b c, fmt (B "CHANINFO %s +%s :%s") [FS a; FS b; FS c] = B "CHANINFO " ++ a ++ " "%char :: "+"%char :: b ++ " "%char :: ":"%char :: c.
Proof. intros. transitivity (B "CHANINFO " ++ a ++ " "%char :: "+"%char :: b ++ " "%char :: ":"%char :: c ++ []); [reflexivity|rewrite app_nil_r; reflexivity]. Qed.
Lemma fmt_info2 : forall a b c d e, fmt (B "CHANINFO %s +%s %s %lu :%s") [FS a; FS b; FS c; FD d; FS e] = B "CHANINFO " ++ a ++ " "%char :: "+"%char :: b ++ " "%char :: c ++ " "%char :: dec d ++ " "%char :: ":"%char :: e.
Proof. intros. transitivity (B "CHANINFO " ++ a ++ " "%char :: "+"%char :: b ++ " "%char :: c ++ " "%char :: dec d ++ " "%char :: ":"%char :: e ++ []); [reflexivity|rewrite app_nil_r; reflexivity]. Qed.
Lemma chaninfo_ok : forall ch k me s b s', linked s -> assoc ch (s_chans s) = Some k -> assoc This_Server (s_heap s) = Some me -> Send_CHANINFO h ch s = Ok b s' ->
  (ch_modes k <> [] \/ ch_topic k <> []) -> sent s s' i (prefixed (id_of me) (chaninfo_text k)).
Proof.
  intros ch k me s b s' L Ck Me H D. unfold Send_CHANINFO in H. bd H as c s1 H1. apply chan_ok in H1. destruct H1 as [H1 ->]. rewrite Ck in H1. injection H1 as <-. cbv zeta in H.
  assert (Z0 : beq (ch_modes k) [] && beq (ch_topic k) [] = false). { destruct (ch_modes k); [|reflexivity]. destruct (ch_topic k); [destruct D; contradiction|reflexivity]. }
  rewrite Z0 in H. apply sent_one. pose proof (chan_arg ch k s Ck) as AC. unfold chaninfo_text. destruct (memb "k" (ch_modes k)) eqn:Ek; destruct (memb "l" (ch_modes k)) eqn:El; cbn [negb andb orb] in H |- *.
  4: { destruct (beq (ch_topic k) []).
    - rewrite app_nil_r. rewrite <- fmt_info0. eapply write_at; [exact L|exact Me| |exact H]. apply seq_ok; [exact AC|]. apply seq_ok; reflexivity.
    - rewrite <- fmt_info1. eapply write_at; [exact L|exact Me| |exact H]. apply seq_ok; [exact AC|]. repeat (apply seq_ok; [reflexivity|]). reflexivity. }
  all: rewrite <- fmt_info2; eapply write_at; [exact L|exact Me| |exact H]; apply seq_ok; [exact AC|]; repeat (apply seq_ok; [reflexivity|]); reflexivity.
Qed.
Lemma fmt_mode : forall a c m, fmt (B "MODE %s +%c %s") [FS a; FC c; FS m] = B "MODE " ++ a ++ " "%char :: "+"%char :: c :: " "%char :: m.
Proof. intros. transitivity (B "MODE " ++ a ++ " "%char :: "+"%char :: c :: " "%char :: m ++ []); [reflexivity|rewrite app_nil_r; reflexivity]. Qed.
Lemma fmt_gline : forall a z r, fmt (B "GLINE %s %ld :%s") [FS a; FD z; FS r] = B "GLINE " ++ a ++ " "%char :: dec z ++ " "%char :: ":"%char :: r.
Proof. intros. transitivity (B "GLINE " ++ a ++ " "%char :: dec z ++ " "%char :: ":"%char :: r ++ []); [reflexivity|rewrite app_nil_r; reflexivity]. Qed.
Lemma wr_assoc_chan : forall s s' ch, wr s s' -> assoc ch (s_chans s') = assoc ch (s_chans s).
Proof. intros s s' ch W. rewrite (w_chans _ _ (wr_same _ _ W)). reflexivity. Qed.
Lemma me_wr : forall s s' me, wr s s' -> assoc This_Server (s_heap s) = Some me -> exists me', assoc This_Server (s_heap s') = Some me' /\ id_of me' = id_of me.
Proof. intros s s' me W A. destruct (wr_cli _ _ _ _ W A) as (x & E). eexists. split; [exact E|reflexivity]. Qed.
Lemma list_ok : forall ch k ty l e me s s', linked s -> assoc ch (s_chans s) = Some k -> assoc This_Server (s_heap s) = Some me -> In e l -> Send_List h ch l ty s = Ok true s' -> sent s s' i (prefixed (id_of me) (mode_text k ty e)).
Proof.
  intros ch k ty l e me s s' L Ck Me I H. unfold Send_List in H. eapply mall_in in H; [|intro; rel_auto|exact I]. destruct H as (a & b & W1 & H & W2).
  destruct (me_wr _ _ _ W1 Me) as (me' & Me' & E). rewrite <- E. eapply (sent_grow s a b s'); [apply wr_out; exact W1| |apply wr_out; exact W2]. apply sent_one. unfold mode_text. rewrite <- fmt_mode.
  eapply write_at; [eapply linked_wr; [exact W1|exact L]|exact Me'| |exact H]. apply seq_ok; [apply chan_arg; rewrite (wr_assoc_chan _ _ _ W1); exact Ck|]. repeat (apply seq_ok; [reflexivity|]). reflexivity.
Qed.
Lemma lists_ok : forall me s s', linked s -> assoc This_Server (s_heap s) = Some me -> Synchronize_Lists h s = Ok true s' ->
  (forall e, In e (s_glines s) -> sent s s' i (prefixed (id_of me) (gline_text (s_now s) e))) /\
  (forall ch k ty e, assoc ch (s_chans s) = Some k -> on_list k ty e -> sent s s' i (prefixed (id_of me) (mode_text k ty e))).
Proof.
  intros me s s' L Me H. unfold Synchronize_Lists in H. bd H as gl s1 H1. rdgets H1. bd H as t s1 H1. unfold now in H1. rdgets H1. apply and_then_ok in H. destruct H as (x & s1 & H1 & [[-> H2]|[_ [_ E]]]); [|discriminate E].
  assert (W1 : wr s s1) by xlast H1. assert (W2 : wr s1 s') by (unfold Send_List in H2; xlast H2). split.
  - intros e I. eapply mall_in in H1; [|intro; rel_auto|exact I]. destruct H1 as (a & b & Wa & H & Wb). destruct (me_wr _ _ _ Wa Me) as (me' & Me' & E). rewrite <- E.
    eapply (sent_grow s a b s'); [apply wr_out; exact Wa| |apply wr_out; etransitivity; eauto]. apply sent_one. unfold gline_text. cbv zeta in H.
    assert (EZ : Z.max 0 (le_valid e - s_now s) = if (0 <? le_valid e - s_now s)%Z then (le_valid e - s_now s)%Z else 0%Z) by (destruct (Z.ltb_spec 0 (le_valid e - s_now s)); lia). rewrite EZ, <- fmt_gline.
    eapply write_at; [eapply linked_wr; [exact Wa|exact L]|exact Me'| |exact H]. repeat (apply seq_ok; [reflexivity|]). reflexivity.
  - intros ch k ty e Ck OL. bd H2 as l s2 H3. unfold Chans in H3. rdgets H3. eapply mall_in in H2; [|intro; unfold Send_List; rel_auto|]. 2: { apply (in_map fst). apply assoc_In. rewrite (wr_assoc_chan _ _ ch W1). exact Ck. }
    destruct H2 as (a & b & Wa & H & Wb). cbn [fst] in H. assert (Ws : wr s a) by (etransitivity; eauto). destruct (me_wr _ _ _ Ws Me) as (me' & Me' & E). rewrite <- E.
    eapply (sent_grow s a b s'); [apply wr_out; exact Ws| |apply wr_out; exact Wb]. assert (Ca : assoc ch (s_chans a) = Some k) by (rewrite (wr_assoc_chan _ _ _ Ws); exact Ck). pose proof (linked_wr _ _ _ _ _ _ Ws L) as La.
    bd H as c s2 H3. apply chan_ok in H3. destruct H3 as [H3 ->]. rewrite Ca in H3. injection H3 as <-.
    apply and_then_ok in H. destruct H as (x & a2 & X2 & [[-> H]|[_ [_ X]]]); [|discriminate X]. apply and_then_ok in H. destruct H as (x & a1 & X3 & [[-> H]|[_ [_ X]]]); [|discriminate X].
    assert (V2 : wr a a2) by (unfold Send_List in X2; xlast X2). assert (V3 : wr a2 a1) by (unfold Send_List in X3; xlast X3). assert (V1 : wr a1 b) by (unfold Send_List in H; xlast H).
    destruct OL as [[-> I]|[[-> I]|[-> I]]].
    + destruct (me_wr _ _ _ V2 Me') as (m2 & M2 & E2). rewrite <- E2. eapply (sent_grow a a2 a1 b); [apply wr_out; exact V2| |apply wr_out; exact V1]. eapply list_ok; [eapply linked_wr; eauto|rewrite (wr_assoc_chan _ _ _ V2); exact Ca|exact M2|exact I|exact X3].
    + eapply (sent_grow a a a2 b); [reflexivity| |apply wr_out; etransitivity; eauto]. eapply list_ok; eauto.
    + assert (V4 : wr a a1) by (etransitivity; eauto). destruct (me_wr _ _ _ V4 Me') as (m2 & M2 & E2). rewrite <- E2. eapply (sent_grow a a1 b b); [apply wr_out; exact V4| |reflexivity]. eapply list_ok; [eapply linked_wr; eauto|rewrite (wr_assoc_chan _ _ _ V4); exact Ca|exact M2|exact I|exact H].
Qed.
End F.

(** ---- the whole synchronisation ---- *)
Lemma mall_all : forall A (f : A -> M bool) (P : state -> Prop), (forall x, rel wr (f x)) -> (forall s s', wr s s' -> P s -> P s') -> forall l,
  (forall x s b s', In x l -> P s -> f x s = Ok b s' -> b = true) -> forall s b s', P s -> mall l f s = Ok b s' -> b = true.
Proof.
  intros A f P R Pw l. induction l as [|x l IH]; intros F s b s' Ps H; cbn [mall] in H; [apply ret_ok in H; apply H|].
  apply and_then_ok in H. destruct H as (y & s1 & H1 & [[-> H2]|[-> [-> ->]]]).
  - eapply IH; [|eapply Pw; [eapply R; exact H1|exact Ps]|exact H2]. intros. eapply F; [right; eassumption|eassumption|eassumption].
  - exfalso. assert (false = true) by (eapply F; [left; reflexivity|exact Ps|exact H1]). discriminate.
Qed.
Lemma mall_rel : forall A (f : A -> M bool), (forall x, rel wr (f x)) -> forall l, rel wr (mall l f).
Proof. intros A f R l. induction l as [|y r IH]; cbn [mall]; [rel_auto|]. apply rel_andM; auto. Qed.
Lemma mall_cut : forall A (f : A -> M bool) l1 l2 s s', mall (l1 ++ l2) f s = Ok true s' -> exists a, mall l1 f s = Ok true a /\ mall l2 f a = Ok true s'.
Proof.
  intros A f l1. induction l1 as [|x l1 IH]; intros l2 s s' H; cbn [app mall] in *; [exists s; split; [reflexivity|exact H]|].
  apply and_then_ok in H. destruct H as (y & s1 & H1 & [[-> H2]|[_ [_ E]]]); [|discriminate E]. destruct (IH _ _ _ H2) as (a & H3 & H4). exists a. split; auto. cbv beta delta [andM bind]. rewrite H1. exact H3.
Qed.
(** two elements, one after the other *)
Lemma mall_two : forall A (f : A -> M bool), (forall x, rel wr (f x)) -> forall l1 x l2 y l3 s s', mall (l1 ++ x :: l2 ++ y :: l3) f s = Ok true s' ->
  exists a b c d, wr s a /\ f x a = Ok true b /\ wr b c /\ f y c = Ok true d /\ wr d s'.
Proof.
  intros A f R l1 x l2 y l3 s s' H. apply mall_cut in H. destruct H as (a & H1 & H). change (x :: l2 ++ y :: l3) with ([x] ++ l2 ++ y :: l3) in H. apply mall_cut in H. destruct H as (b & H2 & H). apply mall_cut in H. destruct H as (c & H3 & H4).
  apply mall_in with (x := x) in H2; [|exact R|left; reflexivity]. destruct H2 as (a1 & b1 & W1 & X & W2). apply mall_in with (x := y) in H4; [|exact R|left; reflexivity]. destruct H4 as (c1 & d1 & W3 & Y & W4).
  exists a1, b1, c1, d1. split; [etransitivity; [eapply (mall_rel _ _ R); exact H1|exact W1]|]. split; auto. split; [etransitivity; [exact W2|etransitivity; [eapply (mall_rel _ _ R); exact H3|exact W3]]|]. auto.
Qed.
Lemma zrange_two : forall u v n, (0 <= u < v)%Z -> (v < n)%Z -> exists l1 l2 l3, zrange n = l1 ++ u :: l2 ++ v :: l3.
Proof.
  intros u v n U V. unfold zrange. set (a := Z.to_nat u). set (b := Z.to_nat v). set (m := Z.to_nat n).
  exists (map Z.of_nat (seq 0 a)), (map Z.of_nat (seq (S a) (b - S a))), (map Z.of_nat (seq (S b) (m - S b))).
  assert (Ea : u = Z.of_nat a) by lia. assert (Eb : v = Z.of_nat b) by lia. rewrite Ea, Eb.
  replace m with (a + S ((b - S a) + S (m - S b))) by lia. rewrite seq_app, map_app. f_equal. cbn [seq map]. f_equal. rewrite seq_app, map_app. replace (0 + a) with a by lia. f_equal. replace (S a + (b - S a)) with b by lia. replace (a + S (b - S a + S (m - S b)) - S b) with (m - S b) by lia. reflexivity.
Qed.
Lemma zrange_in : forall u n, (0 <= u < n)%Z -> In u (zrange n).
Proof. intros u n U. unfold zrange. replace u with (Z.of_nat (Z.to_nat u)) by lia. apply in_map. apply in_seq. lia. Qed.
Lemma fold_max : forall l m s n s', mfold (fun m0 g => x <- Client_Hops g ;; ret (Z.max m0 x)) l m s = Ok n s' -> s' = s /\ (m <= n)%Z /\ forall g c, In g l -> assoc g (s_heap s) = Some c -> (cl_hops c <= n)%Z.
Proof.
  induction l as [|g l IH]; intros m s n s' H; cbn [mfold] in H.
  - apply ret_ok in H. destruct H as [-> ->]. split; auto. split; [lia|]. intros g c [].
  - bd H as x s1 H1. bd H1 as y s2 H2. unfold Client_Hops in H2. bd H2 as c s3 H3. apply cli_ok in H3. destruct H3 as [A ->]. apply ret_ok in H2. destruct H2 as [-> ->]. apply ret_ok in H1. destruct H1 as [-> ->].
    destruct (IH _ _ _ _ H) as (-> & L & K). split; auto. split; [lia|]. intros g' c' [<- |I] A'; [rewrite A in A'; injection A' as <-; lia|eauto].
Qed.

Section G.
Variables (i : connid) (h : handle) (fl : bytes) (rfc : bool).
Local Notation linked := (linked i h fl rfc).
Definition servers_part (n : Z) (l : list handle) : M bool :=
  mall (zrange n) (fun i0 => mall l (fun c => x <- cli c ;; if ctype_eqb (cl_type x) T_SERVER && (cl_hops x =? i0)%Z && negb (heq c h || heq c This_Server) then Announce_Server h c else ret true)).
Definition users_part (l : list handle) : M bool :=
  mall l (fun c => x <- cli c ;; if ctype_eqb (cl_type x) T_USER || ctype_eqb (cl_type x) T_SERVICE then Client_Announce h This_Server c else ret true).
Definition chan_part (ch : chandle) : M bool :=
  loc <- Channel_IsLocal ch ;; if loc then ret true else hc <- Client_HasFlag h "C" ;; (whenB hc (Send_CHANINFO h ch)) >>> (Announce_Channel h ch).
Definition lists_part : M bool := hl <- Client_HasFlag h "L" ;; whenB hl (Synchronize_Lists h).
Lemma rel_server : forall g, rel wr (Announce_Server h g). Proof. intro g. unfold Announce_Server, server_args. rel_auto. Qed.
Lemma rel_servers : forall l i0, rel wr (mall l (fun c => x <- cli c ;; if ctype_eqb (cl_type x) T_SERVER && (cl_hops x =? i0)%Z && negb (heq c h || heq c This_Server) then Announce_Server h c else ret true)).
Proof. intros l i0. apply mall_rel. intro c. rel_auto. Qed.
Lemma rel_user : forall g, rel wr (x <- cli g ;; if ctype_eqb (cl_type x) T_USER || ctype_eqb (cl_type x) T_SERVICE then Client_Announce h This_Server g else ret true).
Proof. intro g. rel_auto. Qed.
Lemma rel_chan : forall ch, rel wr (chan_part ch). Proof. intro ch. unfold chan_part. rel_auto. Qed.
Lemma rel_lists : rel wr lists_part. Proof. unfold lists_part. rel_auto. Qed.

Lemma members_some : forall ch nj xp name st l str s r s', linked s -> announce_members h ch nj xp name st l str s = Ok r s' -> r <> None.
Proof.
  intros ch nj xp name st l. induction l as [|g l IH]; intros str s r s' L H; cbn [announce_members] in H; [apply ret_ok in H; destruct H as [-> _]; discriminate|]. cbv zeta in H. destruct nj.
  - bd H as x s1 H1. assert (W : wr s s1) by (unfold njoin_nick in H1; xlast H1). pose proof (linked_wr _ _ _ _ _ _ W L) as L1. destruct (_ <? List.length x); [|eapply IH; eauto].
    bd H as ok s2 H2. assert (W2 : wr s1 s2) by xlast H2. assert (ok = true). { unfold IRC_WriteStrClient in H2. eapply (fine_write i h fl rfc); [|exact L1|exact H2]. auto. } subst ok. cbn [negb] in H. eapply IH; [eapply linked_wr; eauto|eauto].
  - bd H as ok s1 H1. assert (W1 : wr s s1) by xlast H1. assert (ok = true).
    { assert (F : fine i h fl rfc ((IRC_WriteStrClientPrefix h g "JOIN %s" [aS name]) >>> (ms <- Channel_UserModes ch g ;; mall ms (fun m => IRC_WriteStrClientPrefix h g "MODE %s +%c %s" [aS name; aC m; aID g])))).
      { apply fine_and; [apply fine_write; auto|rel_auto|]. apply fine_bind; [rel_auto|]. intro ms. apply fine_mall; [intro; apply fine_write; auto|intro; rel_auto]. }
      exact (F _ _ _ L H1). }
    subst ok. cbn [negb] in H. eapply IH; [eapply linked_wr; eauto|eauto].
Qed.
Lemma fine_Announce_Channel : forall ch, fine i h fl rfc (Announce_Channel h ch).
Proof.
  intros ch s b s' L H. unfold Announce_Channel in H. bd H as o s1 H1. same H1. bd H as j s1 H1. same H1. bd H as cn s1 H1. same H1. bd H as xp s1 H1. same H1. bd H as nm s1 H1. same H1. bd H as l s1 H1. same H1. cbv zeta in H.
  bd H as r s1 H1. pose proof (members_some _ _ _ _ _ _ _ _ _ _ L H1) as N. assert (W : wr s s1) by xlast H1. destruct r as [str|]; [|congruence].
  destruct (Ascii.eqb _ _); [apply ret_ok in H; apply H|]. unfold IRC_WriteStrClient in H. eapply (fine_write i h fl rfc); [|eapply linked_wr; eauto|exact H]. auto.
Qed.
Lemma fine_chan : forall ch, fine i h fl rfc (chan_part ch).
Proof.
  intro ch. unfold chan_part. apply fine_bind; [rel_auto|]. intros []; [apply fine_ret|]. apply fine_bind; [rel_auto|]. intro hc. apply fine_and; [apply fine_whenB; apply fine_CHANINFO|rel_auto|apply fine_Announce_Channel].
Qed.
Lemma fine_lists : fine i h fl rfc lists_part.
Proof. unfold lists_part. apply fine_bind; [rel_auto|]. intro hl. apply fine_whenB. apply fine_Synchronize. Qed.
Lemma fine_servers : forall n l, fine i h fl rfc (servers_part n l).
Proof.
  intros n l. unfold servers_part. apply fine_mall; [|intro; apply rel_servers]. intro z. apply fine_mall; [|intro; rel_auto]. intro g. apply fine_bind; [rel_auto|]. intro x. apply fine_if; [apply fine_Announce_Server|apply fine_ret].
Qed.
Definition meknown (s : state) : Prop := exists me, assoc This_Server (s_heap s) = Some me.
Lemma meknown_wr : forall s s', wr s s' -> meknown s -> meknown s'.
Proof. intros s s' W (me & M). destruct (me_wr _ _ _ W M) as (m & A & _). exists m. exact A. Qed.
Lemma users_true : forall l s b s', linked s -> meknown s -> users_part l s = Ok b s' -> b = true.
Proof.
  intros l s b s' L K H. unfold users_part in H. eapply (mall_all _ _ (fun s => linked s /\ meknown s)) in H; [exact H|intro; apply rel_user| | |auto].
  - intros a a' W [L1 K1]. split; [eapply linked_wr; eauto|eapply meknown_wr; eauto].
  - clear H. intros g a x a' _ [L1 (me & Me)] H. bd H as d s1 H1. apply cli_ok in H1. destruct H1 as [A ->]. destruct (ctype_eqb (cl_type d) T_USER || ctype_eqb (cl_type d) T_SERVICE) eqn:T; [|apply ret_ok in H; apply H].
    eapply user_ok; [exact L1|exact A| |exact Me|exact H]. unfold a_usr. apply orb_prop in T. destruct T as [T|T]; [left|right]; destruct (cl_type d); try discriminate T; reflexivity.
Qed.
Definition phases (s s' : state) (n : Z) : Prop :=
  exists s1 s2 s3 s4, servers_part n (s_clients s) s = Ok true s1 /\ users_part (s_clients s) s1 = Ok true s2 /\ mall (map fst (s_chans s2)) chan_part s2 = Ok true s3 /\ lists_part s3 = Ok true s4 /\
    IRC_WriteStrClient h "PING :%s" [aID This_Server] s4 = Ok true s' /\ wr s s1 /\ wr s1 s2 /\ wr s2 s3 /\ wr s3 s4 /\ wr s4 s'.
Definition after_login : M bool :=
  l <- Clients ;;
  max_hops <- mfold (fun m h => n <- Client_Hops h ;; ret (Z.max m n)) l 0%Z ;;
  (servers_part (max_hops + 1) l) >>> (users_part l) >>> (chs <- Chans ;; mall chs chan_part) >>> lists_part >>> (IRC_WriteStrClient h "PING :%s" [aID This_Server]).
Lemma after_ok : forall s b s', linked s -> meknown s -> after_login s = Ok b s' ->
  b = true /\ exists n, phases s s' n /\ forall g c, In g (s_clients s) -> assoc g (s_heap s) = Some c -> (cl_hops c < n)%Z.
Proof.
  intros s b s' L K H. unfold after_login in H. bd H as l s1 H1. unfold Clients in H1. rdgets H1. bd H as mx s1 H1. destruct (fold_max _ _ _ _ _ H1) as (-> & _ & MX). clear H1.
  apply and_then_ok in H. destruct H as (x & s1 & H1 & Z). pose proof (fine_servers _ _ _ _ _ L H1). subst x. destruct Z as [[_ H]|[E _]]; [|discriminate E]. assert (W1 : wr s s1). { unfold servers_part in H1. eapply mall_rel; [|exact H1]. intro; apply rel_servers. }
  pose proof (linked_wr _ _ _ _ _ _ W1 L) as L1. pose proof (meknown_wr _ _ W1 K) as K1.
  apply and_then_ok in H. destruct H as (x & s2 & H2 & Z). pose proof (users_true _ _ _ _ L1 K1 H2). subst x. destruct Z as [[_ H]|[E _]]; [|discriminate E]. assert (W2 : wr s1 s2). { unfold users_part in H2. eapply mall_rel; [|exact H2]. intro; apply rel_user. }
  pose proof (linked_wr _ _ _ _ _ _ W2 L1) as L2.
  apply and_then_ok in H. destruct H as (x & s3 & H3 & Z). bd H3 as chs s5 H5. unfold Chans in H5. rdgets H5.
  assert (F3 : fine i h fl rfc (mall (map fst (s_chans s2)) chan_part)) by (apply fine_mall; [intro; apply fine_chan|intro; apply rel_chan]). pose proof (F3 _ _ _ L2 H3). subst x. destruct Z as [[_ H]|[E _]]; [|discriminate E].
  assert (W3 : wr s2 s3) by (eapply mall_rel; [|exact H3]; intro; apply rel_chan). pose proof (linked_wr _ _ _ _ _ _ W3 L2) as L3.
  apply and_then_ok in H. destruct H as (x & s4 & H4 & Z). pose proof (fine_lists _ _ _ L3 H4). subst x. destruct Z as [[_ H]|[E _]]; [|discriminate E]. assert (W4 : wr s3 s4) by exact (rel_lists _ _ _ H4). pose proof (linked_wr _ _ _ _ _ _ W4 L3) as L4.
  assert (W5 : wr s4 s') by xlast H. assert (b = true). { unfold IRC_WriteStrClient in H. eapply (fine_write i h fl rfc); [|exact L4|exact H]. auto. } subst b. split; auto. exists (mx + 1)%Z. split.
  - exists s1, s2, s3, s4. repeat (split; auto).
  - intros g c I A. pose proof (MX g c I A). lia.
Qed.

(** ---- what has been sent, in terms of the state afterwards ---- *)
Definition same_cli (a b : client) : Prop := exists x, a = set_cl_cloaked x b.
Lemma via_wr : forall s s' me me0 d d0 src, wr s s' -> same_cli me me0 -> same_cli d d0 -> server_via s me0 d0 src -> server_via s' me d src.
Proof.
  intros s s' me me0 d d0 src W (x & ->) (y & ->) [(E & ->)|(E & t & p & E1 & E2 & ->)]; [left; split; [exact E|reflexivity]|]. right. split; [exact E|]. rewrite lookup_assoc in E2. destruct (wr_cli _ _ _ _ W E2) as (z & E3). exists t, (set_cl_cloaked z p). rewrite lookup_assoc. auto.
Qed.
Lemma line_wr : forall s s' c c0 me me0 d d0 line, wr s s' -> cl_flags c = cl_flags c0 -> same_cli me me0 -> same_cli d d0 -> user_line s c0 d0 rfc me0 line -> user_line s' c d rfc me line.
Proof.
  intros s s' c c0 me me0 d d0 line W F (x & ->) (y & ->) (g & p & E1 & E2 & E3). rewrite lookup_assoc in E2. destruct (wr_cli _ _ _ _ W E2) as (z & E4). exists g, (set_cl_cloaked z p). rewrite lookup_assoc. split; [exact E1|]. split; [exact E4|]. rewrite F.
  cbn [cl_type set_cl_cloaked]. destruct rfc; [exact E3|]. destruct (ctype_eqb (cl_type d0) T_SERVICE && memb "S" (cl_flags c0)); exact E3.
Qed.
Lemma back : forall s s' g d, wr s s' -> assoc g (s_heap s') = Some d -> exists d0, assoc g (s_heap s) = Some d0 /\ same_cli d d0.
Proof. intros s s' g d W A. destruct (wr_cli_back _ _ _ _ W A) as (d0 & x & E & ->). exists d0. split; auto. exists x. reflexivity. Qed.
Definition srv (s : state) (g : handle) (d : client) : Prop := In g (s_clients s) /\ assoc g (s_heap s) = Some d /\ cl_type d = T_SERVER /\ g <> h /\ g <> This_Server /\ (0 <= cl_hops d)%Z.
Lemma heq_no : forall a b : handle, a <> b -> heq a b = false. Proof. intros a b N. unfold heq. apply Nat.eqb_neq. exact N. Qed.
Lemma run_server : forall g z a b d, srv a g d -> cl_hops d = z -> (x <- cli g ;; if ctype_eqb (cl_type x) T_SERVER && (cl_hops x =? z)%Z && negb (heq g h || heq g This_Server) then Announce_Server h g else ret true) a = Ok true b -> Announce_Server h g a = Ok true b.
Proof.
  intros g z a b d (I & A & T & N1 & N2 & _) E H. bd H as x s1 H1. apply cli_ok in H1. destruct H1 as [A1 ->]. rewrite A in A1. injection A1 as <-. rewrite T, E, Z.eqb_refl, (heq_no _ _ N1), (heq_no _ _ N2) in H. exact H.
Qed.
Lemma srv_wr : forall s s' g d, wr s s' -> srv s g d -> exists d', srv s' g d' /\ cl_hops d' = cl_hops d.
Proof. intros s s' g d W (I & A & T & R). destruct (wr_cli _ _ _ _ W A) as (x & E). exists (set_cl_cloaked x d). split; [|reflexivity]. split; [rewrite (w_clients _ _ (wr_same _ _ W)); exact I|]. split; [exact E|]. split; [exact T|exact R]. Qed.
(** a server is announced *)
Lemma server_run : forall s s1 n g d, srv s g d -> (cl_hops d < n)%Z -> servers_part n (s_clients s) s = Ok true s1 -> exists a b, wr s a /\ Announce_Server h g a = Ok true b /\ wr b s1.
Proof.
  intros s s1 n g d S N H. unfold servers_part in H. apply mall_in with (x := cl_hops d) in H; [|intro; apply rel_servers|apply zrange_in; split; [apply S|exact N]]. destruct H as (a & b & W1 & H & W2).
  destruct (srv_wr _ _ _ _ W1 S) as (d1 & S1 & E1). apply mall_in with (x := g) in H; [|intro; rel_auto|apply S]. destruct H as (a1 & b1 & W3 & H & W4). destruct (srv_wr _ _ _ _ W3 S1) as (d2 & S2 & E2). pose proof (run_server _ _ _ _ _ S2 (eq_trans E2 E1) H) as H'.
  exists a1, b1. split; [etransitivity; eauto|]. split; auto. etransitivity; eauto.
Qed.
Lemma server_two : forall s s1 n g d g2 d2, srv s g d -> srv s g2 d2 -> (cl_hops d < cl_hops d2)%Z -> (cl_hops d2 < n)%Z -> servers_part n (s_clients s) s = Ok true s1 ->
  exists a b a2 b2, wr s a /\ Announce_Server h g a = Ok true b /\ wr b a2 /\ Announce_Server h g2 a2 = Ok true b2 /\ wr b2 s1.
Proof.
  intros s s1 n g d g2 d2 S S2 L N H. destruct (zrange_two (cl_hops d) (cl_hops d2) n) as (l1 & l2 & l3 & E); [split; [apply S|exact L]|exact N|]. unfold servers_part in H. rewrite E in H.
  apply mall_two in H; [|intro; apply rel_servers]. destruct H as (a & b & a2 & b2 & W1 & H1 & W2 & H2 & W3).
  assert (Rb : wr a b) by (eapply rel_servers; exact H1). destruct (srv_wr _ _ _ _ W1 S) as (e1 & X1 & Y1). assert (Wa : wr s a2) by (etransitivity; [exact W1|etransitivity; eauto]). destruct (srv_wr _ _ _ _ Wa S2) as (e2 & X2 & Y2).
  apply mall_in with (x := g) in H1; [|intro; rel_auto|apply S]. destruct H1 as (u & v & U1 & H1 & U2). destruct (srv_wr _ _ _ _ U1 X1) as (f1 & Z1 & T1). pose proof (run_server _ _ _ _ _ Z1 (eq_trans T1 Y1) H1) as P1.
  apply mall_in with (x := g2) in H2; [|intro; rel_auto|apply S2]. destruct H2 as (u2 & v2 & V1 & H2 & V2). destruct (srv_wr _ _ _ _ V1 X2) as (f2 & Z2 & T2). pose proof (run_server _ _ _ _ _ Z2 (eq_trans T2 Y2) H2) as P2.
  exists u, v, u2, v2. exact (conj (wr_trans _ _ _ W1 U1) (conj P1 (conj (wr_trans _ _ _ U2 (wr_trans _ _ _ W2 V1)) (conj P2 (wr_trans _ _ _ V2 W3))))).
Qed.
Lemma user_run : forall s s1 g d, In g (s_clients s) -> assoc g (s_heap s) = Some d -> a_usr d -> users_part (s_clients s) s = Ok true s1 -> exists a b, wr s a /\ Client_Announce h This_Server g a = Ok true b /\ wr b s1.
Proof.
  intros s s1 g d I A U H. unfold users_part in H. apply mall_in with (x := g) in H; [|intro; apply rel_user|exact I]. destruct H as (a & b & W1 & H & W2). exists a, b. split; auto. split; auto.
  destruct (wr_cli _ _ _ _ W1 A) as (x & A1). bd H as y s2 H1. apply cli_ok in H1. destruct H1 as [A2 ->]. rewrite A1 in A2. injection A2 as <-. assert (T : ctype_eqb (cl_type (set_cl_cloaked x d)) T_USER || ctype_eqb (cl_type (set_cl_cloaked x d)) T_SERVICE = true) by (destruct U as [U|U]; cbn [cl_type set_cl_cloaked]; rewrite U; reflexivity). rewrite T in H. exact H.
Qed.
Lemma chan_run : forall s s1 ch k, assoc ch (s_chans s) = Some k -> ~ local_name (ch_name k) -> mall (map fst (s_chans s)) chan_part s = Ok true s1 ->
  exists a a2 b, wr s a /\ (memb "C" fl = true -> linked a -> Send_CHANINFO h ch a = Ok true a2) /\ wr a a2 /\ Announce_Channel h ch a2 = Ok true b /\ wr b s1.
Proof.
  intros s s1 ch k A N H. apply mall_in with (x := ch) in H; [|intro; apply rel_chan|]. 2: { apply (in_map fst) with (x := (ch, k)). apply assoc_In. exact A. } destruct H as (a & b & W1 & H & W2). unfold chan_part in H.
  bd H as loc s2 H1. unfold Channel_IsLocal in H1. bd H1 as k1 s3 H3. apply chan_ok in H3. destruct H3 as [A1 ->]. rewrite (wr_assoc_chan _ _ _ W1), A in A1. injection A1 as <-. apply ret_ok in H1. destruct H1 as [-> ->].
  destruct (Ascii.eqb_spec (hd0 (ch_name k)) "&") as [E|_]. { exfalso. apply N. destruct (ch_name k) as [|x r]; [discriminate E|]. cbn in E. subst x. exists r. reflexivity. }
  bd H as hc s2 H1. assert (E : s2 = a /\ (linked a -> hc = memb "C" fl)). { unfold Client_HasFlag in H1. bd H1 as c1 s3 H3. apply cli_ok in H3. destruct H3 as [A1 ->]. apply ret_ok in H1. destruct H1 as [-> ->]. split; auto. intros (_ & _ & (c & B1 & _ & _ & B2 & _)). rewrite A1 in B1. injection B1 as <-. rewrite B2. apply strchr0_memb. discriminate. } destruct E as [-> E].
  apply and_then_ok in H. destruct H as (x & a2 & H2 & [[-> H]|[_ [_ X]]]); [|discriminate X]. exists a, a2, b. split; auto. split; [intros M L; rewrite (E L), M in H2; exact H2|]. split; [xlast H2|]. auto.
Qed.
(** the other links are told about the new one *)
Lemma others_ok : forall g d j me a b p, linked a -> assoc g (s_heap a) = Some d -> cl_type d = T_SERVER -> cl_conn d = Some j -> (cl_introducer d = Some g \/ cl_introducer d = Some This_Server) -> assoc This_Server (s_heap a) = Some me -> assoc h (s_heap a) = Some p ->
  Announce_Server h g a = Ok true b -> sent a b j (prefixed (id_of me) (server_text p)).
Proof.
  intros g d j me a b p L G T J I Me P H. unfold Announce_Server in H. bd H as o s1 H1. apply Client_Conn_ok in H1. destruct H1 as (-> & c1 & D1 & ->). rewrite G in D1. injection D1 as <-. rewrite J in H. cbn [is_some whenB] in H.
  apply and_then_ok in H. destruct H as (x & s1 & H1 & [[-> H]|[_ [_ E]]]); [|discriminate E]. assert (W : wr s1 b) by (unfold server_args in H; xlast H). unfold server_args, IRC_WriteStrClient in H1.
  destruct (write_vals' g This_Server _ _ _ _ _ H1 ltac:(auto)) as (vals & M). destruct (seq_id _ _ _ _ M) as (c1 & Q1 & Q2). rewrite P in Q1. injection Q1 as <-. pose proof L as [AO _]. destruct (AO _ _ _ G J) as (cn & K1 & K2).
  assert (L2 : HandSync.linked j g (cl_flags d) (co_rfc1459 cn) a). { split; [exact AO|]. split; [exists cn; auto|]. exists d. split; [exact G|]. split; [exact J|]. split; [exact T|]. split; [reflexivity|]. destruct I as [I|I]; auto. }
  assert (MV : mseq [aID h; aHops1 h; (t <- Client_MyToken h ;; ret (FD t)); aInfo h] a = Ok [FS (id_of p); FD (cl_hops p + 1); FD (cl_mytoken p); FS (cl_info p)] a).
  { apply seq_ok; [exact Q2|]. apply seq_ok; [exact (hops_ok _ _ _ P)|]. apply seq_ok; [unfold Client_MyToken, bind, cli; rewrite P; reflexivity|]. apply seq_ok; [unfold aInfo, Client_Info, bind, cli; rewrite P; reflexivity|reflexivity]. }
  destruct (link_write _ _ _ _ _ _ _ _ _ _ _ L2 MV H1) as (_ & p1 & P1 & E). rewrite Me in P1. injection P1 as <-. rewrite fmt_server in E. eapply (sent_mid a a s1 b); [exists []; reflexivity|exact E|apply wr_out; exact W].
Qed.
End G.

(** ---- the numeric 376 ---- *)
Lemma ready_run : forall s i h c text b s', live s -> link_ready s i h c text -> Parse_Request i text s = Ok b s' -> IRC_Num_ENDOFMOTD h s = Ok b s'.
Proof.
  intros s i h c text b s' Lv (C & T & _ & (p & a & args & P & A) & SC) H. unfold Parse_Request in H. cbv zeta in H. bd H as sc s1 H1. unfold cf in H1. rdgets H1.
  assert (NS : cf_scrubctcp (s_conf s) && ScrubCTCP (trim text) = false). { apply andb_false_iff. destruct (cf_scrubctcp (s_conf s)); [right|auto]. destruct (ScrubCTCP (trim text)) eqn:E; auto. exfalso. apply SC; auto. apply scrub_ctcp. exact E. }
  rewrite NS, P in H. bd H as v s1 H1. unfold Validate_Prefix in H1. bd H1 as o s2 H2. destruct (client_of_get _ _ _ _ _ _ C H2) as [-> ->]. clear H2.
  bd H1 as h' s2 H2. apply nonnull_ok in H2. destruct H2 as [E ->]. injection E as <-. bd H1 as t s2 H2. destruct (client_of_type _ _ _ _ _ _ C H2) as [-> ->]. clear H2. bd H1 as cn s2 H2. apply con_ok in H2. destruct H2 as [-> _]. rewrite T in H1. cbn [rq_prefix is_registered] in H1.
  assert (V : exists q, v = inr (mkReq q (B "376") (a :: args)) /\ s1 = s). { destruct p; cbn [negb is_registered ctype_eqb andb orb] in H1; apply ret_ok in H1; destruct H1 as [-> ->]; eexists; split; reflexivity. }
  destruct V as (q & -> & ->). clear H1. unfold Handle_Request in H. bd H as o s2 H2. destruct (client_of_get _ _ _ _ _ _ C H2) as [-> ->]. clear H2. bd H as h' s2 H2. apply nonnull_ok in H2. destruct H2 as [E ->]. injection E as <-. bd H as t s2 H2. destruct (client_of_type _ _ _ _ _ _ C H2) as [-> ->]. clear H2. rewrite T in H.
  cbn [rq_command] in H. change ((ctype_eqb T_UNKNOWNSERVER T_SERVER || ctype_eqb T_UNKNOWNSERVER T_UNKNOWNSERVER) && (List.length (B "376") =? 3) && (1 <? atoi (B "376"))%Z) with true in H. cbv iota in H.
  unfold Handle_Numeric in H. bd H as tg s2 H2. unfold argc, arg in H2. cbn [rq_args List.length nth Nat.ltb Nat.leb] in H2.
  assert (TG : s2 = s /\ tg = Some This_Server). { destruct (beq a (B "*")) eqn:Ea; [apply ret_ok in H2; destruct H2; auto|]. destruct A as [-> |(me & TC & NE)]; [rewrite beq_refl in Ea; discriminate|]. eapply search_the; [apply live_icli; exact Lv|exact TC|exact NE|exact H2]. }
  destruct TG as [-> ->]. unfold heq in H. rewrite Nat.eqb_refl in H. cbv zeta in H. cbn [rq_command] in H. change (atoi (B "376")) with 376%Z in H. exact H.
Qed.
Definition synced (s : state) (i : connid) (h : handle) (fl : bytes) (rfc : bool) (s' : state) : Prop :=
  exists s1 n, grow s s1 /\ linked i h fl rfc s1 /\ meknown s1 /\ phases h s1 s' n /\ wr s1 s' /\ (forall g c, In g (s_clients s1) -> assoc g (s_heap s1) = Some c -> (cl_hops c < n)%Z) /\ NoDup (map mpair (s_members s1)) /\
    (forall ch k, assoc ch (s_chans s1) = Some k -> List.length (ch_name k) < 51) /\
    (forall g c j, assoc g (s_heap s1) = Some c -> cl_conn c = Some j -> cl_introducer c = Some This_Server \/ cl_introducer c = Some g).
Lemma typed_conn : forall tok c, cl_conn (typed T_SERVER tok c) = cl_conn c /\ cl_introducer (typed T_SERVER tok c) = cl_introducer c /\ cl_flags (typed T_SERVER tok c) = cl_flags c /\ cl_type (typed T_SERVER tok c) = T_SERVER.
Proof. intros tok c. repeat split; reflexivity. Qed.
Lemma endofmotd_ok : forall s i h c cn b s', live s -> undisturbed s -> client_of s i h c -> lookup i (s_conns s) = Some cn -> IRC_Num_ENDOFMOTD h s = Ok b s' -> b = true /\ synced s i h (cl_flags c) (co_rfc1459 cn) s'.
Proof.
  intros s i h c cn b s' Lv U C Cn H. pose proof (live_itree _ Lv U) as T. pose proof (live_wf2 _ Lv) as [Wf [O _]]. pose proof (live_ichan _ Lv) as IC. rewrite lookup_assoc in Cn. destruct C as [(cn' & C1 & C2) C3]. rewrite lookup_assoc in C1, C3. rewrite Cn in C1. injection C1 as <-.
  destruct (tr_c2h _ T _ _ Cn) as (h' & c' & D1 & D2 & D3). rewrite C2 in D1. injection D1 as <-. rewrite C3 in D2. injection D2 as <-.
  unfold IRC_Num_ENDOFMOTD in H. bd H as u s1 H1. destruct u. apply Client_SetType_ok in H1. destruct H1 as (c1 & tok & a & b0 & A1 & E1 & _). rewrite C3 in A1. injection A1 as <-.
  assert (HP : s_heap s1 = aupd h (typed T_SERVER tok) (s_heap s) /\ s_conns s1 = s_conns s /\ s_chans s1 = s_chans s /\ s_members s1 = s_members s /\ s_clients s1 = s_clients s /\ s_out s1 = s_out s).
  { rewrite E1. unfold if_odd. destruct (retype_odd c T_SERVER); repeat split; reflexivity. }
  clear E1. destruct HP as (E1 & E2 & E3 & E4 & E5 & E6).
  assert (HG : forall g d, assoc g (s_heap s1) = Some d -> exists d0, assoc g (s_heap s) = Some d0 /\ cl_conn d = cl_conn d0 /\ cl_introducer d = cl_introducer d0).
  { intros g d A. rewrite E1, assoc_aupd in A. destruct (Nat.eqb h g); [|exists d; auto]. destruct (assoc g (s_heap s)) as [d0|]; [|discriminate A]. cbn in A. injection A as <-. exists d0. split; [reflexivity|split; reflexivity]. }
  assert (TR : forall g d j, assoc g (s_heap s1) = Some d -> cl_conn d = Some j -> cl_introducer d = Some This_Server \/ cl_introducer d = Some g).
  { intros g d j A J. destruct (HG _ _ A) as (d0 & A0 & K1 & K2). rewrite K1 in J. rewrite K2. exact (tr_local _ T _ _ _ A0 J). }
  assert (Hh : assoc h (s_heap s1) = Some (typed T_SERVER tok c)) by (rewrite E1, assoc_aupd, Nat.eqb_refl, C3; reflexivity).
  assert (L1 : linked i h (cl_flags c) (co_rfc1459 cn) s1).
  { split; [|split].
    - intros g d j A J. destruct (HG _ _ A) as (d0 & A0 & K1 & _). rewrite K1 in J. destruct (tr_h2c _ T _ _ _ A0 J) as (cj & Q1 & _). exists cj. rewrite E2. split; auto. apply (O _ _ Q1).
    - exists cn. rewrite E2. split; auto. split; auto. apply (O _ _ Cn).
    - exists (typed T_SERVER tok c). split; [exact Hh|]. destruct (typed_conn tok c) as (-> & -> & -> & ->). split; auto. split; auto. split; auto. destruct (tr_local _ T _ _ _ C3 D3) as [X|X]; auto. }
  bd H as oc s2 H2. same H2. bd H as u s2 H2. assert (W : wr s1 s2) by xlast H2.
  assert (K1 : meknown s1). { destruct (tr_me _ T) as (me & M1 & _). unfold meknown. rewrite E1, assoc_aupd. destruct (Nat.eqb h This_Server); rewrite M1; eexists; reflexivity. }
  pose proof (linked_wr _ _ _ _ _ _ W L1) as L2. pose proof (meknown_wr _ _ W K1) as K2. change (after_login h s2 = Ok b s') in H. destruct (after_ok _ _ _ _ _ _ _ L2 K2 H) as (-> & n & Ph & Hn). split; auto.
  exists s2, n. split. { destruct (wr_out _ _ W) as (nw & En). exists nw. rewrite En, E6. reflexivity. } split; auto. split; auto. split; auto.
  split. { destruct Ph as (t1 & t2 & t3 & t4 & _ & _ & _ & _ & _ & P1 & P2 & P3 & P4 & P5). etransitivity; [exact P1|]. etransitivity; [exact P2|]. etransitivity; [exact P3|]. etransitivity; eauto. }
  split; auto. split. { rewrite (w_members _ _ (wr_same _ _ W)), E4. apply (wf_members _ Wf). }
  split. { intros ch k A. rewrite (wr_assoc_chan _ _ _ W), E3 in A. pose proof (kg_name _ _ _ (ic_good _ IC _ _ A)) as Q. exact Q. }
  intros g d j A J. destruct (wr_cli_back _ _ _ _ W A) as (d0 & x & A0 & ->). cbn in J |- *. exact (TR _ _ _ A0 J).
Qed.

(** ---- what has been sent ---- *)
Lemma find_mb : forall l ch m, NoDup (map mpair l) -> In m l -> mb_chan m = ch -> find (is_mb ch (mb_client m)) l = Some m.
Proof.
  intros l ch m N I E. induction l as [|x l IH]; [destruct I|]. cbn [find]. cbn [map] in N. inversion N as [|? ? N1 N2]; subst. destruct (is_mb (mb_chan m) (mb_client m) x) eqn:F.
  - apply is_mb_pair in F. destruct I as [<- |I]; auto. exfalso. apply N1. rewrite F. change (mb_client m, mb_chan m) with (mpair m). apply in_map. exact I.
  - destruct I as [-> |I]; auto. assert (T : is_mb (mb_chan m) (mb_client m) m = true) by (apply is_mb_pair; reflexivity). congruence.
Qed.
Section S.
Variables (s : state) (i : connid) (h : handle) (fl : bytes) (rfc : bool) (s' : state) (me : client).
Hypotheses (SY : synced s i h fl rfc s') (Me : lookup This_Server (s_heap s') = Some me).
Lemma srv_back : forall s1 g d, wr s1 s' -> other_server s' h g d -> exists d0, srv h s1 g d0 /\ same_cli d d0.
Proof.
  intros s1 g d W ((K1 & K2) & T & N1 & N2 & P). rewrite lookup_assoc in K2. destruct (back _ _ _ _ W K2) as (d0 & A & x & E). exists d0. split; [|exists x; exact E]. rewrite (w_clients _ _ (wr_same _ _ W)) in K1. subst d. cbn in T, P. repeat (split; auto).
Qed.
Lemma cli_hops_same : forall d d0, same_cli d d0 -> cl_hops d = cl_hops d0. Proof. intros d d0 (x & ->). reflexivity. Qed.
(** the result of one announcement, seen from the end *)
Lemma server_line : forall a b g d, linked i h fl rfc a -> other_server s' h g d -> wr a b -> wr b s' -> Announce_Server h g a = Ok true b -> exists src, server_via s' me d src /\ sent a b i (prefixed src (server_text d)).
Proof.
  intros a b g d L OS W1 W2 H. assert (W : wr a s') by (eapply wr_trans; eauto). destruct OS as ((_ & K2) & _). rewrite lookup_assoc in K2. rewrite lookup_assoc in Me. destruct (back _ _ _ _ W K2) as (d0 & A & Sd). destruct (back _ _ _ _ W Me) as (m0 & Am & Sm).
  destruct (server_ok _ _ _ _ _ _ _ _ _ _ L A Am H) as (_ & src & V & T). exists src. split; [eapply via_wr; eauto|]. destruct Sd as (x & ->). exact T.
Qed.
Lemma sync_server : forall g d, other_server s' h g d -> exists src, server_via s' me d src /\ sent s s' i (prefixed src (server_text d)).
Proof.
  intros g d OS. destruct SY as (s1 & n & G & L & K & Ph & W & Hn & _). destruct Ph as (t1 & t2 & t3 & t4 & P1 & P2 & P3 & P4 & P5 & W1 & W2 & W3 & W4 & W5).
  destruct (srv_back _ _ _ W OS) as (d0 & S0 & Sd). assert (Hh : (cl_hops d0 < n)%Z) by (eapply Hn; apply S0). destruct (server_run _ _ _ _ _ _ S0 Hh P1) as (a & b & Wa & H & Wb).
  assert (Wab : wr a b) by (eapply rel_server; exact H). assert (Wbs : wr b s'). { eapply wr_trans; [exact Wb|]. eapply wr_trans; [exact W2|]. eapply wr_trans; [exact W3|]. eapply wr_trans; eauto. }
  destruct (server_line a b g d) as (src & V & T); auto. { eapply linked_wr; [exact Wa|exact L]. } exists src. split; auto. eapply (sent_grow s a b s'); [|exact T|apply wr_out; exact Wbs]. transitivity s1; [exact G|apply wr_out; exact Wa].
Qed.
Lemma sync_servers : forall g d g2 d2, other_server s' h g d -> other_server s' h g2 d2 -> (cl_hops d < cl_hops d2)%Z ->
  exists src src2, server_via s' me d src /\ server_via s' me d2 src2 /\ sent_before s s' i (prefixed src (server_text d)) (prefixed src2 (server_text d2)).
Proof.
  intros g d g2 d2 OS OS2 Hl. destruct SY as (s1 & n & G & L & K & Ph & W & Hn & _). destruct Ph as (t1 & t2 & t3 & t4 & P1 & P2 & P3 & P4 & P5 & W1 & W2 & W3 & W4 & W5).
  destruct (srv_back _ _ _ W OS) as (d0 & S0 & Sd). destruct (srv_back _ _ _ W OS2) as (e0 & S2 & Se). assert (Hh : (cl_hops e0 < n)%Z) by (eapply Hn; apply S2). rewrite (cli_hops_same _ _ Sd), (cli_hops_same _ _ Se) in Hl.
  destruct (server_two _ _ _ _ _ _ _ _ S0 S2 Hl Hh P1) as (a & b & a2 & b2 & Wa & H & Wb & H2 & Wb2). assert (Wab : wr a b) by (eapply rel_server; exact H). assert (Wab2 : wr a2 b2) by (eapply rel_server; exact H2).
  assert (Wbs : wr b2 s'). { eapply wr_trans; [exact Wb2|]. eapply wr_trans; [exact W2|]. eapply wr_trans; [exact W3|]. eapply wr_trans; eauto. }
  pose proof (linked_wr _ _ _ _ _ _ Wa L) as La. assert (Wx : wr b s') by (eapply wr_trans; [exact Wb|eapply wr_trans; eauto]).
  destruct (server_line a b g d La OS Wab Wx H) as (src & V & T). assert (La2 : linked i h fl rfc a2) by (eapply linked_wr; [exact Wb|]; eapply linked_wr; eauto). destruct (server_line a2 b2 g2 d2 La2 OS2 Wab2 Wbs H2) as (src2 & V2 & T2).
  exists src, src2. split; auto. split; auto. eapply (before_grow s a b a2 b2 s'); [|exact T|apply wr_out; exact Wb|exact T2|apply wr_out; exact Wbs]. transitivity s1; [exact G|apply wr_out; exact Wa].
Qed.
(** the links to other servers *)
Lemma sync_others : forall g d j p, other_server s' h g d -> cl_conn d = Some j -> lookup h (s_heap s') = Some p -> sent s s' j (prefixed (id_of me) (server_text p)).
Proof.
  intros g d j p OS J Hp. destruct SY as (s1 & n & G & L & K & Ph & W & Hn & _ & _ & TR). destruct Ph as (t1 & t2 & t3 & t4 & P1 & P2 & P3 & P4 & P5 & W1 & W2 & W3 & W4 & W5).
  destruct (srv_back _ _ _ W OS) as (d0 & S0 & (x & Sd)). assert (Hh : (cl_hops d0 < n)%Z) by (eapply Hn; apply S0). destruct (server_run _ _ _ _ _ _ S0 Hh P1) as (a & b & Wa & H & Wb).
  assert (Wab : wr a b) by (eapply rel_server; exact H). assert (Wbs : wr b s'). { eapply wr_trans; [exact Wb|]. eapply wr_trans; [exact W2|]. eapply wr_trans; [exact W3|]. eapply wr_trans; eauto. }
  assert (Was : wr a s') by (eapply wr_trans; eauto). pose proof (linked_wr _ _ _ _ _ _ Wa L) as La. rewrite lookup_assoc in Hp. pose proof Me as Me1. rewrite lookup_assoc in Me1. destruct (back _ _ _ _ Was Hp) as (p0 & Ap & (y & ->)). destruct (back _ _ _ _ Was Me1) as (m0 & Am & (z & E3)).
  destruct OS as ((_ & K2) & T & _). rewrite lookup_assoc in K2. destruct (back _ _ _ _ Was K2) as (d1 & A1 & (w & E1)). assert (J1 : cl_conn d1 = Some j) by (rewrite E1 in J; exact J). assert (T1 : cl_type d1 = T_SERVER) by (rewrite E1 in T; exact T).
  assert (I1 : cl_introducer d1 = Some g \/ cl_introducer d1 = Some This_Server). { destruct (wr_cli_back _ _ _ _ Wa A1) as (d2 & v & A2 & ->). cbn in J1 |- *. destruct (TR _ _ _ A2 J1); auto. }
  pose proof (others_ok _ _ _ _ _ _ _ _ _ _ _ La A1 T1 J1 I1 Am Ap H) as Q. rewrite E3. eapply (sent_grow s a b s'); [|exact Q|apply wr_out; exact Wbs]. transitivity s1; [exact G|apply wr_out; exact Wa].
Qed.
(** users and services *)
Local Notation a_person := (a_person s').
Lemma user_sent : forall s1 s2 g d p, wr s1 s' -> wr s2 s' -> linked i h fl rfc s1 -> a_person g d -> lookup h (s_heap s') = Some p -> users_part h (s_clients s1) s1 = Ok true s2 -> exists line a b, user_line s' p d rfc me line /\ wr s1 a /\ wr a b /\ sent a b i line /\ wr b s2.
Proof.
  intros s1 s2 g d p W1 W2 L ((K1 & K2) & U) Hp H. rewrite lookup_assoc in K2, Hp. pose proof Me as Me1. rewrite lookup_assoc in Me1. destruct (back _ _ _ _ W1 K2) as (d0 & A0 & (x & E0)). rewrite (w_clients _ _ (wr_same _ _ W1)) in K1.
  assert (U0 : a_usr d0) by (rewrite E0 in U; exact U). destruct (user_run _ _ _ _ _ K1 A0 U0 H) as (a & b & Wa & R & Wb). assert (Wab : wr a b) by (revert R; match goal with |- ?m _ = _ -> _ => assert (Q : rel wr m) by rel_auto; exact (Q _ _ _) end).
  assert (Was : wr a s') by (eapply wr_trans; [exact Wab|eapply wr_trans; eauto]). destruct (back _ _ _ _ Was K2) as (d1 & A1 & Sd). destruct (back _ _ _ _ Was Me1) as (m1 & Am & Sm). destruct (back _ _ _ _ Was Hp) as (p1 & Ap & (y & E1)).
  assert (U1 : a_usr d1) by (destruct Sd as (z & Ez); rewrite Ez in U; exact U). destruct (user_ok _ _ _ _ _ _ _ _ _ _ (linked_wr _ _ _ _ _ _ Wa L) A1 U1 Am R) as (_ & c & line & Ac & UL & T).
  rewrite Ap in Ac. injection Ac as <-. exists line, a, b. split; [eapply line_wr; [exact Was| |exact Sm|exact Sd|exact UL]; rewrite E1; reflexivity|]. auto.
Qed.
Lemma sync_user : forall g d p, a_person g d -> lookup h (s_heap s') = Some p -> exists line, user_line s' p d rfc me line /\ sent s s' i line /\
  forall g2 d2, other_server s' h g2 d2 -> exists src, server_via s' me d2 src /\ sent_before s s' i (prefixed src (server_text d2)) line.
Proof.
  intros g d p AP Hp. destruct SY as (s1 & n & G & L & K & Ph & W & Hn & _). destruct Ph as (t1 & t2 & t3 & t4 & P1 & P2 & P3 & P4 & P5 & W1 & W2 & W3 & W4 & W5).
  assert (V2 : wr t2 s') by (eapply wr_trans; [exact W3|eapply wr_trans; eauto]). assert (V1 : wr t1 s') by (eapply wr_trans; eauto). pose proof (linked_wr _ _ _ _ _ _ W1 L) as L1.
  rewrite <- (w_clients _ _ (wr_same _ _ W1)) in P2. destruct (user_sent _ _ _ _ _ V1 V2 L1 AP Hp P2) as (line & a & b & UL & Wa & Wab & T & Wb). assert (Wbs : wr b s') by (eapply wr_trans; eauto). exists line. split; auto. split.
  - eapply (sent_grow s a b s'); [|exact T|apply wr_out; exact Wbs]. transitivity s1; [exact G|]. apply wr_out. exact (wr_trans _ _ _ W1 Wa).
  - intros g2 d2 OS. destruct (srv_back _ _ _ W OS) as (d0 & S0 & Sd). assert (Hh : (cl_hops d0 < n)%Z) by (eapply Hn; apply S0). destruct (server_run _ _ _ _ _ _ S0 Hh P1) as (a0 & b0 & Wa0 & H & Wb0).
    assert (Wab0 : wr a0 b0) by (eapply rel_server; exact H). assert (Wbs0 : wr b0 s') by (eapply wr_trans; eauto). destruct (server_line a0 b0 g2 d2) as (src & V & T2); auto. { eapply linked_wr; [exact Wa0|exact L]. } exists src. split; auto.
    eapply (before_grow s a0 b0 a b s'); [|exact T2| |exact T|apply wr_out; exact Wbs]; [transitivity s1; [exact G|apply wr_out; exact Wa0]|]. apply wr_out. exact (wr_trans _ _ _ Wb0 Wa).
Qed.
(** channels *)
Lemma plain_back : forall N a ch, wr a s' -> plain_members s' ch N -> forall g, In g (members_of a ch) -> plain N a g.
Proof.
  intros N a ch W P g I. unfold members_of in I. apply in_map_iff in I. destruct I as (m & E & I). apply filter_In in I. destruct I as [I Ec]. apply Nat.eqb_eq in Ec.
  destruct (P g) as (d & r & x & A & Ed & Nx & Lr). { exists m. rewrite (w_members _ _ (wr_same _ _ W)). auto. } rewrite lookup_assoc in A. destruct (back _ _ _ _ W A) as (d0 & A0 & (y & E0)). rewrite E0 in Ed. cbn in Ed. exists d0. split; auto. split; [exists r, x; auto|].
  unfold id_of. rewrite Ed. destruct (r ++ [x]) eqn:Z; [destruct r; discriminate Z|]. rewrite <- Z, app_length. cbn [List.length]. lia.
Qed.
Lemma sync_chan : forall ch k, lookup ch (s_chans s') = Some k -> ~ local_name (ch_name k) ->
  (memb "C" fl = true -> (ch_modes k <> [] \/ ch_topic k <> []) -> sent s s' i (prefixed (id_of me) (chaninfo_text k))) /\
  (forall N, N < 32 -> plain_members s' ch N -> forall m d, In m (s_members s') -> mb_chan m = ch -> lookup (mb_client m) (s_heap s') = Some d ->
    exists line, member_line rfc (memb "X" fl) me d k (mb_modes m) N line /\ sent s s' i line /\
      (memb "C" fl = true -> (ch_modes k <> [] \/ ch_topic k <> []) -> sent_before s s' i (prefixed (id_of me) (chaninfo_text k)) line) /\
      (forall p, lookup h (s_heap s') = Some p -> a_person (mb_client m) d -> exists intro, user_line s' p d rfc me intro /\ sent_before s s' i intro line)).
Proof.
  intros ch k Ck NL. destruct SY as (s1 & n & G & L & K & Ph & W & Hn & ND & LN & _). destruct Ph as (t1 & t2 & t3 & t4 & P1 & P2 & P3 & P4 & P5 & W1 & W2 & W3 & W4 & W5).
  rewrite lookup_assoc in Ck. pose proof (linked_wr _ _ _ _ _ _ W1 L) as L1. pose proof (linked_wr _ _ _ _ _ _ W2 L1) as L2. assert (V3 : wr t3 s') by (eapply wr_trans; eauto). assert (V2 : wr t2 s') by (eapply wr_trans; eauto). assert (V1 : wr t1 s') by (eapply wr_trans; eauto).
  assert (C2 : assoc ch (s_chans t2) = Some k) by (rewrite <- (wr_assoc_chan _ _ _ V2); exact Ck). destruct (chan_run i h fl rfc _ _ _ _ C2 NL P3) as (a & a2 & b & Wa & CI & Wa2 & H & Wb). assert (La : linked i h fl rfc a) by (eapply linked_wr; eauto). specialize (fun M => CI M La).
  assert (Wab : wr a2 b) by (revert H; match goal with |- ?m _ = _ -> _ => assert (Q : rel wr m) by rel_auto; exact (Q _ _ _) end). assert (Wbs : wr b s') by (eapply wr_trans; eauto). assert (Wa2s : wr a2 s') by (eapply wr_trans; eauto). assert (Was : wr a s') by (eapply wr_trans; eauto).
  assert (Ga : grow s a). { transitivity s1; [exact G|]. apply wr_out. exact (wr_trans _ _ _ W1 (wr_trans _ _ _ W2 Wa)). }
  pose proof Me as Me1. rewrite lookup_assoc in Me1. assert (CA : assoc ch (s_chans a) = Some k) by (rewrite <- (wr_assoc_chan _ _ _ Was); exact Ck). assert (CA2 : assoc ch (s_chans a2) = Some k) by (rewrite <- (wr_assoc_chan _ _ _ Wa2s); exact Ck).
  destruct (back _ _ _ _ Was Me1) as (m0 & Am & (z & Ez)). destruct (back _ _ _ _ Wa2s Me1) as (m2 & Am2 & (z2 & Ez2)).
  assert (SC : memb "C" fl = true -> ch_modes k <> [] \/ ch_topic k <> [] -> sent a a2 i (prefixed (id_of me) (chaninfo_text k))). { intros MC D. rewrite Ez. change (id_of (set_cl_cloaked z m0)) with (id_of m0). exact (chaninfo_ok _ _ _ _ _ _ _ _ _ _ La CA Am (CI MC) D). }
  split. { intros MC D. eapply (sent_grow s a a2 s'); [exact Ga|apply SC; auto|apply wr_out; exact Wa2s]. }
  intros N LN' PM m d Im Em Ld. rewrite lookup_assoc in Ld. pose proof (linked_wr _ _ _ _ _ _ Wa2 La) as La2.
  assert (EM : s_members s' = s_members a2) by exact (w_members _ _ (wr_same _ _ Wa2s)). assert (EM1 : s_members s' = s_members s1) by exact (w_members _ _ (wr_same _ _ W)).
  assert (Lk : List.length (ch_name k) < 51). { apply (LN ch). rewrite <- (wr_assoc_chan _ _ _ W). exact Ck. }
  assert (Ig : In (mb_client m) (members_of a2 ch)). { unfold members_of. apply in_map. apply filter_In. rewrite <- EM. split; auto. apply Nat.eqb_eq. exact Em. }
  destruct (back _ _ _ _ Wa2s Ld) as (d0 & A0 & (y & E0)).
  destruct (channel_ok _ _ _ _ _ _ _ _ _ _ _ LN' La2 CA2 Lk Am2 (plain_back _ _ _ Wa2s PM) H) as (_ & Q). specialize (Q _ Ig).
  assert (X : exists line, member_line rfc (memb "X" fl) me d k (mb_modes m) N line /\ sent a2 b i line).
  { assert (ER : rfc = true \/ rfc = false) by (clear; destruct rfc; auto). unfold member_line. destruct ER as [ER|ER]; rewrite ER in Q |- *.
    - destruct Q as (d1 & A1 & T). rewrite A0 in A1. injection A1 as <-. eexists. split; [|exact T]. rewrite E0. reflexivity.
    - destruct (Q (entry (memb "X" fl) (mb_modes m) d0)) as (l & Il & Ll & T).
      { exists d0, m. split; auto. split; [|reflexivity]. rewrite <- EM, EM1. apply find_mb; [exact ND|rewrite <- EM1; exact Im|exact Em]. }
      eexists. split; [exists l; split; [|split; [reflexivity|]]|rewrite Ez2; exact T]; [rewrite E0; exact Il|]. unfold prefixed. cbn [List.length]. rewrite app_length. cbn [List.length]. lia. }
  destruct X as (line & X1 & T). exists line. split; auto. split; [eapply (sent_grow s a2 b s'); [|exact T|apply wr_out; exact Wbs]; transitivity a; [exact Ga|apply wr_out; exact Wa2]|]. split.
  - intros MC D. eapply (before_grow s a a2 a2 b s'); [exact Ga|apply SC; auto|reflexivity|exact T|apply wr_out; exact Wbs].
  - intros p Hp AP. rewrite <- (w_clients _ _ (wr_same _ _ W1)) in P2. destruct (user_sent _ _ _ _ _ V1 V2 L1 AP Hp P2) as (intro & u & v & UL & Wu & Wuv & Tu & Wv). exists intro. split; auto.
    eapply (before_grow s u v a2 b s'); [|exact Tu| |exact T|apply wr_out; exact Wbs]; [transitivity s1; [exact G|]; apply wr_out; exact (wr_trans _ _ _ W1 Wu)|]. apply wr_out. exact (wr_trans _ _ _ Wv (wr_trans _ _ _ Wa Wa2)).
Qed.
(** the lists *)
Lemma sync_lists : memb "L" fl = true ->
  (forall e, In e (s_glines s') -> sent s s' i (prefixed (id_of me) (gline_text (s_now s') e))) /\
  (forall ch k ty e, lookup ch (s_chans s') = Some k -> on_list k ty e -> sent s s' i (prefixed (id_of me) (mode_text k ty e))).
Proof.
  intros ML. destruct SY as (s1 & n & G & L & K & Ph & W & Hn & _). destruct Ph as (t1 & t2 & t3 & t4 & P1 & P2 & P3 & P4 & P5 & W1 & W2 & W3 & W4 & W5).
  assert (Ws3 : wr s1 t3) by (eapply wr_trans; [exact W1|eapply wr_trans; eauto]). pose proof (linked_wr _ _ _ _ _ _ Ws3 L) as L3. assert (W3s : wr t3 s') by (eapply wr_trans; eauto). pose proof Me as Me1. rewrite lookup_assoc in Me1. destruct (back _ _ _ _ W3s Me1) as (m0 & Am & (z & Ez)).
  unfold lists_part in P4. bd P4 as hl s2 H1. assert (E : s2 = t3 /\ hl = memb "L" fl). { unfold Client_HasFlag in H1. bd H1 as c1 s3 H3. apply cli_ok in H3. destruct H3 as [A1 ->]. apply ret_ok in H1. destruct H1 as [-> ->]. split; auto. destruct L3 as (_ & _ & (c & B1 & _ & _ & B2 & _)). rewrite A1 in B1. injection B1 as <-. rewrite B2. apply strchr0_memb. discriminate. } destruct E as [-> ->].
  rewrite ML in P4. cbn [whenB] in P4. destruct (lists_ok _ _ _ _ _ _ _ L3 Am P4) as [Q1 Q2]. pose proof (wr_same _ _ W3s) as WS. assert (G3 : grow s t3) by (transitivity s1; [exact G|apply wr_out; exact Ws3]). rewrite Ez. change (id_of (set_cl_cloaked z m0)) with (id_of m0). split.
  - intros e I. rewrite (w_glines _ _ WS) in I. rewrite (w_now _ _ WS). eapply (sent_grow s t3 t4 s'); [exact G3|apply Q1; exact I|apply wr_out; exact W5].
  - intros ch k ty e A OL. rewrite lookup_assoc, (wr_assoc_chan _ _ _ W3s) in A. eapply (sent_grow s t3 t4 s'); [exact G3|eapply Q2; eauto|apply wr_out; exact W5].
Qed.
End S.

Lemma done_synced : forall s i h c cn s', link_done s i h c cn s' -> synced s i h (cl_flags c) (co_rfc1459 cn) s'.
Proof. intros s i h c cn s' (Lv & U & Cn & text & b & R & H). pose proof (ready_run _ _ _ _ _ _ _ Lv R H) as H1. eapply endofmotd_ok; eauto. apply R. Qed.
Lemma sync_peer : forall s i h fl rfc s', synced s i h fl rfc s' -> exists p, lookup h (s_heap s') = Some p /\ cl_type p = T_SERVER /\ cl_conn p = Some i /\ is_open s' i = true.
Proof.
  intros s i h fl rfc s' (s1 & n & _ & L & _ & _ & W & _). pose proof (linked_wr _ _ _ _ _ _ W L) as (_ & (cn & C1 & C2 & _) & (c & A1 & A2 & A3 & _)). exists c. rewrite lookup_assoc. split; auto. split; auto. split; auto. unfold Spec.is_open. rewrite C1. exact C2.
Qed.
(** short lines are not cut *)
Lemma wire_short : forall t, List.length t <= 510 -> ~ In "000"%char t -> on_wire t = t ++ [Bytes.CR; Bytes.LF].
Proof.
  intros t L N. unfold on_wire. assert (E : upto_nul t = t). { clear L. induction t as [|x t IH]; [reflexivity|]. cbn [upto_nul]. destruct (Ascii.eqb_spec x NUL) as [-> |_]; [destruct N; left; reflexivity|]. f_equal. apply IH. intro I. apply N. right. exact I. }
  rewrite E. destruct (Nat.ltb_spec 510 (List.length t)); [lia|reflexivity].
Qed.
