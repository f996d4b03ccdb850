(* GENERATED by tools/gen_rel.py from tools/rel_chan.spec *)
(** The functions that change clients, channels, memberships and lists, as sequences of the
    elementary changes of RelBase.v. *)
From Coq Require Import List Ascii String ZArith NArith Bool Lia.
From Coq Require Import Relations RelationClasses.
From Verif Require Import Bytes Match Lists Hash ParseReq State Messages Monad Core Write Info Chan Mode Msg Login Oper Server Dispatch Conn Rel RelWrite RelInfo RelBase.
Import ListNotations.
Local Open Scope m_scope.

(** ---- descriptive fields ---- *)
Lemma firstn_lt : forall A n (l : list A), 0 < n -> List.length (firstn (n - 1) l) < n.
Proof. intros. rewrite firstn_length. lia. Qed.
Lemma strlcpy_lt : forall n s, 0 < n -> List.length (strlcpy n s) < n.
Proof. intros. pose proof (strlcpy_length n s H). lia. Qed.
Ltac csz := constructor; cbn -[strlcpy firstn CLIENT_HOST_LEN CLIENT_USER_LEN CLIENT_INFO_LEN CLIENT_AWAY_LEN CLIENT_FLAGS_LEN CLIENT_NICK_LEN]; auto;
  try (apply strlcpy_lt; unfold CLIENT_HOST_LEN, CLIENT_USER_LEN, CLIENT_INFO_LEN, CLIENT_AWAY_LEN, CLIENT_FLAGS_LEN, CLIENT_NICK_LEN; lia);
  try (apply firstn_lt; unfold CLIENT_HOST_LEN, CLIENT_USER_LEN, CLIENT_INFO_LEN, CLIENT_AWAY_LEN, CLIENT_FLAGS_LEN, CLIENT_NICK_LEN; lia).
Ltac cme := constructor; try reflexivity; intros [] ?; csz.
Lemma me_host : forall x c, cmeta c (set_cl_host (strlcpy CLIENT_HOST_LEN x) c).
Proof. intros x c. cme. Qed.
Lemma me_ipa : forall t c, cmeta c (set_cl_ipa (match t with [] => None | _ => Some (firstn (CLIENT_HOST_LEN - 1) t) end) c).
Proof. intros t c. cme. destruct t; [exact I|]. unfold osize. apply firstn_lt. unfold CLIENT_HOST_LEN. lia. Qed.
Lemma me_user : forall u n b c, cmeta c (set_user u n b c).
Proof.
  intros u n b c. cme. unfold set_user. destruct u; [|destruct b]; cbn [cl_user set_cl_user];
    try (apply strlcpy_lt; unfold CLIENT_USER_LEN; lia).
  cbn [List.length]. pose proof (strlcpy_length (CLIENT_USER_LEN - 1) n). unfold CLIENT_USER_LEN in *. lia.
Qed.
Lemma me_info : forall u n c, cmeta c (set_info u n c).
Proof. intros u n c. cme. Qed.
Lemma me_flags : forall x c, cmeta c (set_cl_flags (strlcpy CLIENT_FLAGS_LEN x) c).
Proof. intros x c. cme. Qed.
Lemma me_account : forall a c, cmeta c (set_cl_account (match a with [] => None | _ => Some (firstn (CLIENT_NICK_LEN - 1) a) end) c).
Proof. intros t c. cme. destruct t; [exact I|]. unfold osize. apply firstn_lt. unfold CLIENT_NICK_LEN. lia. Qed.
Lemma me_away : forall x c, cmeta c (set_cl_away (Some (firstn (CLIENT_AWAY_LEN - 1) x)) c).
Proof. intros x c. cme. Qed.
Lemma me_hops : forall x c, cmeta c (set_cl_hops x c).
Proof. intros x c. cme. Qed.
Lemma me_token : forall x c, cmeta c (set_cl_token x c).
Proof. intros x c. cme. Qed.
Lemma me_cap_pending : forall x c, cmeta c (set_cl_cap_pending x c).
Proof. intros x c. cme. Qed.
Lemma me_cap_multi : forall x c, cmeta c (set_cl_cap_multi x c).
Proof. intros x c. cme. Qed.
Lemma me_cloaked : forall x c, osize CLIENT_HOST_LEN x -> cmeta c (set_cl_cloaked x c).
Proof. intros x c H. cme. Qed.

Lemma to_topic_short : forall t c, List.length t < COMMAND_LEN -> ctopic c (set_ch_topic t c).
Proof. intros t c H. constructor; auto. Qed.
Lemma to_topic_by : forall t w c, ctopic c (set_ch_topic_time t (set_ch_topic_who (strlcpy CLIENT_NICK_LEN w) c)).
Proof. intros t w c. constructor; auto. intros _. cbn -[strlcpy]. apply strlcpy_lt. unfold CLIENT_NICK_LEN. lia. Qed.
Lemma is_mb_find_none : forall ch h l, find (is_mb ch h) l = None -> existsb (is_mb ch h) l = false.
Proof. induction l; simpl; auto. destruct (is_mb ch h a); try discriminate; auto. Qed.
Lemma upd_nth_length : forall A n (f : A -> A) l, List.length (upd_nth n f l) = List.length l.
Proof.
  intros. unfold upd_nth. rewrite app_length.
  transitivity (List.length (firstn n l) + List.length (skipn n l)).
  - destruct (skipn n l); reflexivity.
  - rewrite <- app_length, firstn_skipn. reflexivity.
Qed.

(** removal of a member, in terms of its parts *)
Section P.
Context {X : state -> state -> Prop} {PO : PreOrder X} {WS : WrSub X} {P_delmb : PS L_delmb X} {P_delchan : PS L_delchan X}.
Lemma del_mb_rel : forall ch h, rel X (modify (fun s => set_s_members (del_mb ch h (s_members s)) s)).
Proof. intros ch h s a s' Hr. apply modify_ok in Hr. subst. apply (ps (l := L_delmb)). apply p_delmb. Qed.
#[local] Hint Extern 0 (rel _ (modify (fun s => set_s_members (del_mb _ _ (s_members s)) s))) => apply del_mb_rel : rel.
Lemma drop_chan_rel : forall ch, rel X (p <- Channel_HasMode ch "P" ;;
    (if p then ret tt
     else n <- Channel_MemberCount ch ;; whenM (n =? 0)%Z (Delete_Channel ch))).
Proof.
  intros ch s a s' Hr. apply bind_ok in Hr. destruct Hr as (p & s1 & H1 & Hr). unfold Channel_HasMode in H1.
  apply bind_ok in H1. destruct H1 as (c & s0 & Hc & H1). apply chan_ok in Hc. destruct Hc as [Hc ->]. apply ret_ok in H1. destruct H1; subst.
  destruct (strchr0 "P" (ch_modes c)) eqn:EP. { apply ret_ok in Hr. destruct Hr; subst. reflexivity. }
  assert (memb "P" (ch_modes c) = false) as EP' by (unfold strchr0 in EP; apply orb_false_iff in EP; tauto).
  apply bind_ok in Hr. destruct Hr as (n & s2 & H2 & Hr). unfold Channel_MemberCount in H2. apply gets_ok in H2. destruct H2; subst.
  unfold whenM in Hr. destruct (Z.eqb_spec (Z.of_nat (List.length (filter (fun m => Nat.eqb (mb_chan m) ch) (s_members s)))) 0).
  - unfold Delete_Channel in Hr. apply bind_ok in Hr. destruct Hr as (c2 & s3 & H3 & Hr). apply chan_ok in H3. destruct H3 as [_ ->].
    apply modify_ok in Hr. subst. apply (ps (l := L_delchan)). eapply p_delchan; eauto.
    intros m Hm Heq. assert (In m (filter (fun m => Nat.eqb (mb_chan m) ch) (s_members s))) as Hin.
    { apply filter_In. split; auto. apply Nat.eqb_eq. auto. }
    destruct (filter _ _); [destruct Hin | simpl in e; lia].
  - apply ret_ok in Hr. destruct Hr; subst. reflexivity.
Qed.
Lemma bind_assoc_rel : forall A B C (m : M A) (f : A -> M B) (g : B -> M C), rel X (bind (bind m f) g) -> rel X (bind m (fun a => bind (f a) g)).
Proof. intros A B C m f g H s a s' Hr. apply (H s a s'). unfold bind in *. destruct (m s); auto. Qed.
Lemma Remove_Client_prim : forall ty ch h origin reason inform, rel X (Remove_Client ty ch h origin reason inform).
Proof. intros. unfold Remove_Client. apply rel_bind; [rel_auto|intro loc]. cbv zeta. apply rel_bind; [rel_auto|intro b]. 
  destruct b; cbn [negb]; [|rel_auto]. apply rel_bind; [rel_auto|intro name]. apply rel_bind; [rel_auto|intro]. 
  apply rel_bind; [destruct ty; rel_auto|intro]. apply bind_assoc_rel. apply rel_bind; [apply drop_chan_rel|intro; rel_auto]. Qed.
#[export] Instance remove_prim : PS L_remove X.
Proof. intros s s' H. inversion H; subst. eapply Remove_Client_prim; eauto. Qed.
End P.

Section R.
Context {X : state -> state -> Prop} {PO : PreOrder X} {WS : WrSub X}.
Context {P_meta : PS L_meta X} {P_attr : PS L_attr X} {P_umode : PS L_umode X} {P_oper : PS L_oper X}
  {P_create : PS L_create X} {P_create_any : PS L_create_any X} {P_addmb : PS L_addmb X} {P_remove : PS L_remove X}
  {P_mbmode : PS L_mbmode X} {P_chadd : PS L_chadd X} {P_chdel : PS L_chdel X}
  {P_setmodes : PS L_setmodes X} {P_topic : PS L_topic X} {P_key : PS L_key X} {P_limit : PS L_limit X}
  {P_keyfile : PS L_keyfile X} {P_lists : PS L_lists X} {P_away : PS L_away X} {P_check : PS L_check X} {P_useinv : PS L_useinv X} {P_addinv : PS L_addinv X} {P_class : PS L_class X} {P_whowas : PS L_whowas X}
  {P_sv : PS L_sv X} {P_sig : PS L_sig X} {P_wc : PS L_wc X} {P_conn : PS L_conn X}.
Ltac meta L := intros s a s' Hr; apply upd_cli_ok in Hr; destruct Hr as (c & Hc & ->); apply (ps (l := L_meta)); eapply p_meta; eauto.
Lemma upd_meta_rel : forall h f, (forall c, cmeta c (f c)) -> rel X (upd_cli h f).
Proof. intros h f Hf. meta idtac. Qed.
Lemma upd_attr_rel : forall h f, (forall c, cattr c (f c)) -> rel X (upd_cli h f).
Proof. intros h f Hf s a s' Hr. apply upd_cli_ok in Hr. destruct Hr as (c & Hc & ->). apply (ps (l := L_attr)). eapply p_attr; eauto. Qed.
Lemma upd_away_rel : forall h f, (forall c, caway c (f c)) -> rel X (upd_cli h f).
Proof. intros h f Hf s a s' Hr. apply upd_cli_ok in Hr. destruct Hr as (c & Hc & ->). apply (ps (l := L_away)). eapply p_away; eauto. Qed.
#[local] Hint Resolve me_host me_ipa me_user me_info me_flags me_account me_away me_hops me_token me_cap_pending me_cap_multi : rel.
#[local] Hint Extern 1 (rel _ (upd_cli _ _)) => (apply upd_attr_rel; intro; split; [|reflexivity|reflexivity]) : rel.
#[local] Hint Extern 2 (rel _ (upd_cli _ _)) => (apply upd_meta_rel; intro) : rel.
Lemma Client_SetHostname_rel : forall (h : handle) (host : bytes), rel X (Client_SetHostname h host).
Proof. intros. unfold Client_SetHostname; rel_auto. Qed.
#[local] Hint Extern 0 (rel _ (Client_SetHostname _ _)) => apply Client_SetHostname_rel : rel.
Lemma Client_SetIPAText_rel : forall (h : handle) (t : bytes), rel X (Client_SetIPAText h t).
Proof. intros. apply upd_attr_rel; intro; split; try reflexivity; apply me_ipa. Qed.
#[local] Hint Extern 0 (rel _ (Client_SetIPAText _ _)) => apply Client_SetIPAText_rel : rel.
Lemma Client_SetUser_rel : forall (h : handle) (user : bytes) (idented : bool), rel X (Client_SetUser h user idented).
Proof. intros. unfold Client_SetUser; rel_auto. Qed.
#[local] Hint Extern 0 (rel _ (Client_SetUser _ _ _)) => apply Client_SetUser_rel : rel.
Lemma Client_SetInfo_rel : forall (h : handle) (info : bytes), rel X (Client_SetInfo h info).
Proof. intros. unfold Client_SetInfo; rel_auto. Qed.
#[local] Hint Extern 0 (rel _ (Client_SetInfo _ _)) => apply Client_SetInfo_rel : rel.
Lemma Set_Cloaked_rel : forall (h : handle) (origin : option handle) (host : option bytes), rel X (Client_UpdateCloakedHostname h origin host).
Proof.
  intros h origin host. unfold Client_UpdateCloakedHostname. apply rel_bind; [rel_auto|intro c]. cbv zeta. apply rel_bind; [rel_auto|intro cx]. apply rel_bind; [rel_auto|intro salt].
  intros s0 a s' Hr. apply bind_ok in Hr. destruct Hr as (new & s1 & Hn & Hr). destruct (Cloak_new_ok h c cx salt host _ _ _ Hn) as (-> & H2 & _).
  apply bind_ok in Hr. destruct Hr as (u & s2 & Hu & Hr). transitivity s2.
  - revert Hu. apply upd_away_rel. intro. split; try reflexivity. apply me_cloaked. exact H2.
  - revert Hr. match goal with |- ?m _ = _ -> _ => assert (rel X m) as Hm by rel_auto end. apply Hm.
Qed.
#[local] Hint Extern 0 (rel _ (Client_UpdateCloakedHostname _ _ _)) => apply Set_Cloaked_rel : rel.
Lemma Client_SetFlags_rel : forall (h : handle) (f : bytes), rel X (Client_SetFlags h f).
Proof. intros. apply upd_attr_rel; intro; split; try reflexivity; apply me_flags. Qed.
#[local] Hint Extern 0 (rel _ (Client_SetFlags _ _)) => apply Client_SetFlags_rel : rel.
Lemma Client_SetAccountName_rel : forall (h : handle) (a : bytes), rel X (Client_SetAccountName h a).
Proof. intros. apply upd_attr_rel; intro; split; try reflexivity; apply me_account. Qed.
#[local] Hint Extern 0 (rel _ (Client_SetAccountName _ _)) => apply Client_SetAccountName_rel : rel.
Lemma Client_SetAway_rel : forall (h : handle) (t : bytes), rel X (Client_SetAway h t).
Proof. intros. apply upd_away_rel; intro; split; try reflexivity; apply me_away. Qed.
#[local] Hint Extern 0 (rel _ (Client_SetAway _ _)) => apply Client_SetAway_rel : rel.
Lemma Client_SetHops_rel : forall (h : handle) (n : Z), rel X (Client_SetHops h n).
Proof. intros. apply upd_attr_rel; intro; split; try reflexivity; apply me_hops. Qed.
#[local] Hint Extern 0 (rel _ (Client_SetHops _ _)) => apply Client_SetHops_rel : rel.
Lemma Client_SetToken_rel : forall (h : handle) (n : Z), rel X (Client_SetToken h n).
Proof. intros. apply upd_attr_rel; intro; split; try reflexivity; apply me_token. Qed.
#[local] Hint Extern 0 (rel _ (Client_SetToken _ _)) => apply Client_SetToken_rel : rel.
Lemma Client_ModeAdd_rel : forall h m, m <> "o"%char -> rel X (Client_ModeAdd h m).
Proof.
  intros h m Hm s a s' Hr. unfold Client_ModeAdd in Hr. apply bind_ok in Hr. destruct Hr as (c & s1 & H1 & Hr).
  apply cli_ok in H1. destruct H1 as [H1 ->]. destruct (mode_add (cl_modes c) m) as [ms b] eqn:E.
  apply bind_ok in Hr. destruct Hr as (u & s2 & H2 & Hr). apply ret_ok in Hr. destruct Hr as [_ ->].
  apply upd_cli_ok in H2. destruct H2 as (c2 & _ & ->). replace ms with (fst (mode_add (cl_modes c) m)) by (rewrite E; reflexivity).
  apply (ps (l := L_umode)). eapply p_umode_add; eauto.
Qed.
Lemma Client_ModeAdd_oper_rel : forall h, rel X (Client_ModeAdd h "o").
Proof.
  intros h s a s' Hr. unfold Client_ModeAdd in Hr. apply bind_ok in Hr. destruct Hr as (c & s1 & H1 & Hr).
  apply cli_ok in H1. destruct H1 as [H1 ->]. destruct (mode_add (cl_modes c) "o") as [ms b] eqn:E.
  apply bind_ok in Hr. destruct Hr as (u & s2 & H2 & Hr). apply ret_ok in Hr. destruct Hr as [_ ->].
  apply upd_cli_ok in H2. destruct H2 as (c2 & _ & ->). replace ms with (fst (mode_add (cl_modes c) "o")) by (rewrite E; reflexivity).
  apply (ps (l := L_oper)). eapply p_oper; eauto.
Qed.
Lemma Client_ModeAdd_any_rel : forall h m, rel X (Client_ModeAdd h m).
Proof. intros h m. destruct (ascii_dec m "o"); [subst; apply Client_ModeAdd_oper_rel | apply Client_ModeAdd_rel; auto]. Qed.
Lemma Client_ModeDel_rel : forall (h : handle) (m : ascii), rel X (Client_ModeDel h m).
Proof. intros. intros s a s' Hr. unfold Client_ModeDel in Hr. apply bind_ok in Hr. destruct Hr as (c & s1 & H1 & Hr). 
    apply cli_ok in H1. destruct H1 as [H1 ->]. destruct (mode_del (cl_modes c) m) as [ms b] eqn:E. 
    apply bind_ok in Hr. destruct Hr as (u & s2 & H2 & Hr). apply ret_ok in Hr. destruct Hr as [_ ->]. 
    apply upd_cli_ok in H2. destruct H2 as (c2 & _ & ->). replace ms with (fst (mode_del (cl_modes c) m)) by (rewrite E; reflexivity). 
    apply (ps (l := L_umode)). eapply p_umode_del; eauto. Qed.
#[local] Hint Extern 0 (rel _ (Client_ModeDel _ _)) => apply Client_ModeDel_rel : rel.
#[local] Hint Extern 0 (rel _ (Client_ModeDel _ _)) => apply Client_ModeDel_rel : rel.
Lemma upd_cconn_rel : forall i f, (forall c, cconn c (f c)) -> rel X (upd_con i f).
Proof. intros i f Hf s a s' Hr. apply upd_con_ok in Hr. subst. apply (ps (l := L_conn)). apply (p_conn s i f Hf). Qed.
Ltac cc := apply upd_cconn_rel; intros []; split; reflexivity.
Lemma Conn_SetPassword_rel : forall (i : connid) (p : bytes), rel X (Conn_SetPassword i p).
Proof. intros. unfold Conn_SetPassword. cc. Qed.
#[local] Hint Extern 0 (rel _ (Conn_SetPassword _ _)) => apply Conn_SetPassword_rel : rel.
Lemma Conn_UpdatePing_rel : forall (i : connid) (t : Z), rel X (Conn_UpdatePing i t).
Proof. intros. unfold Conn_UpdatePing. cc. Qed.
#[local] Hint Extern 0 (rel _ (Conn_UpdatePing _ _)) => apply Conn_UpdatePing_rel : rel.
Lemma upd_sv_rel : forall (n : nat) (f : cserver -> cserver), rel X (upd_sv n f).
Proof. intros. intros s a s' Hr. unfold upd_sv in Hr. apply modify_ok in Hr. subst. apply (ps (l := L_sv)). apply p_sv. apply upd_nth_length. Qed.
#[local] Hint Extern 0 (rel _ (upd_sv _ _)) => apply upd_sv_rel : rel.
Lemma Conf_UnsetServer_rel : forall (i : connid), rel X (Conf_UnsetServer i).
Proof. intros. unfold Conf_UnsetServer. apply rel_bind; [rel_auto|intro]. apply rel_bind; [rel_auto|intro]. apply rel_bind; [rel_auto|intro]. 
    intros s u s' Hr. apply modify_ok in Hr. subst. apply (ps (l := L_sv)). apply p_sv. rewrite map_length. reflexivity. Qed.
#[local] Hint Extern 0 (rel _ (Conf_UnsetServer _)) => apply Conf_UnsetServer_rel : rel.
Lemma Channel_ModeAdd_rel : forall (ch : chandle) (m : ascii), rel X (Channel_ModeAdd ch m).
Proof. intros. intros s a s' Hr. unfold Channel_ModeAdd in Hr. apply bind_ok in Hr. destruct Hr as (c & s1 & H1 & Hr). 
    apply chan_ok in H1. destruct H1 as [H1 ->]. destruct (mode_add (ch_modes c) m) as [ms b] eqn:E. 
    apply bind_ok in Hr. destruct Hr as (u & s2 & H2 & Hr). apply ret_ok in Hr. destruct Hr as [_ ->]. 
    apply upd_chan_ok in H2. destruct H2 as (c2 & _ & ->). replace ms with (fst (mode_add (ch_modes c) m)) by (rewrite E; reflexivity). 
    apply (ps (l := L_chadd)). eapply p_chadd; eauto. Qed.
#[local] Hint Extern 0 (rel _ (Channel_ModeAdd _ _)) => apply Channel_ModeAdd_rel : rel.
Lemma Channel_ModeDel_rel : forall (ch : chandle) (m : ascii), rel X (Channel_ModeDel ch m).
Proof. intros. intros s a s' Hr. unfold Channel_ModeDel in Hr. apply bind_ok in Hr. destruct Hr as (c & s1 & H1 & Hr). 
    apply chan_ok in H1. destruct H1 as [H1 ->]. destruct (mode_del (ch_modes c) m) as [ms b] eqn:E. 
    apply bind_ok in Hr. destruct Hr as (mbs & s3 & H3 & Hr). apply gets_ok in H3. destruct H3 as [-> ->]. 
    apply bind_ok in Hr. destruct Hr as (u0 & s4 & H4 & Hr). apply modify_ok in H4. subst s4. 
    apply bind_ok in Hr. destruct Hr as (u & s2 & H2 & Hr). apply ret_ok in Hr. destruct Hr as [_ ->]. 
    apply upd_chan_ok in H2. destruct H2 as (c2 & _ & ->). replace ms with (fst (mode_del (ch_modes c) m)) by (rewrite E; reflexivity). 
    apply (ps (l := L_chdel)). eapply p_chdel; eauto. Qed.
#[local] Hint Extern 0 (rel _ (Channel_ModeDel _ _)) => apply Channel_ModeDel_rel : rel.
Lemma Get_Cl2Chan_ok : forall ch h s o s', Get_Cl2Chan ch h s = Ok o s' -> s' = s /\ o = find (is_mb ch h) (s_members s).
Proof. intros ch h s o s' H. unfold Get_Cl2Chan in H. apply gets_ok in H. destruct H. auto. Qed.
Lemma Channel_UserModeAdd_rel : forall (ch : chandle) (h : handle) (m : ascii), rel X (Channel_UserModeAdd ch h m).
Proof. intros. intros s a s' Hr. unfold Channel_UserModeAdd in Hr. apply bind_ok in Hr. destruct Hr as (o & s1 & H1 & Hr). 
    apply Get_Cl2Chan_ok in H1. destruct H1 as [-> ->]. apply bind_ok in Hr. destruct Hr as (mb & s2 & H2 & Hr). 
    apply nonnull_ok in H2. destruct H2 as [H2 ->]. destruct (mode_add (mb_modes mb) m) as [ms b] eqn:E. 
    apply bind_ok in Hr. destruct Hr as (u & s3 & H3 & Hr). apply ret_ok in Hr. destruct Hr as [_ ->]. 
    apply modify_ok in H3. subst s3. apply (ps (l := L_mbmode)). eapply p_mbmode with (m := m); eauto. left. rewrite E. reflexivity. Qed.
#[local] Hint Extern 0 (rel _ (Channel_UserModeAdd _ _ _)) => apply Channel_UserModeAdd_rel : rel.
Lemma Channel_UserModeDel_rel : forall (ch : chandle) (h : handle) (m : ascii), rel X (Channel_UserModeDel ch h m).
Proof. intros. intros s a s' Hr. unfold Channel_UserModeDel in Hr. apply bind_ok in Hr. destruct Hr as (o & s1 & H1 & Hr). 
    apply Get_Cl2Chan_ok in H1. destruct H1 as [-> ->]. apply bind_ok in Hr. destruct Hr as (mb & s2 & H2 & Hr). 
    apply nonnull_ok in H2. destruct H2 as [H2 ->]. destruct (mode_del (mb_modes mb) m) as [ms b] eqn:E. 
    apply bind_ok in Hr. destruct Hr as (u & s3 & H3 & Hr). apply ret_ok in Hr. destruct Hr as [_ ->]. 
    apply modify_ok in H3. subst s3. apply (ps (l := L_mbmode)). eapply p_mbmode with (m := m); eauto. right. rewrite E. reflexivity. Qed.
#[local] Hint Extern 0 (rel _ (Channel_UserModeDel _ _ _)) => apply Channel_UserModeDel_rel : rel.
Lemma upd_topic_rel : forall ch f, (forall c, ctopic c (f c)) -> rel X (upd_chan ch f).
Proof. intros ch f Hf s a s' Hr. apply upd_chan_ok in Hr. destruct Hr as (c & Hc & ->). apply (ps (l := L_topic)). eapply p_topic; eauto. Qed.
Lemma Channel_SetTopic_rel : forall (ch : chandle) (o : option handle) (topic : bytes), rel X (Channel_SetTopic ch o topic).
Proof. intros. unfold Channel_SetTopic. apply rel_bind; [rel_auto|intro c]. apply rel_bind; [rel_auto|intro t]. apply rel_bind. 
    + destruct (Nat.ltb_spec (List.length topic) COMMAND_LEN). 
      * apply upd_topic_rel. intro; apply to_topic_short; auto. 
      * apply rel_whenM. apply upd_topic_rel. intro; apply to_topic_short. unfold COMMAND_LEN; simpl; lia. 
    + intros []. apply rel_bind; [rel_auto|intro w]. apply upd_topic_rel. intro; apply to_topic_by. Qed.
#[local] Hint Extern 0 (rel _ (Channel_SetTopic _ _ _)) => apply Channel_SetTopic_rel : rel.
Lemma Channel_SetKey_rel : forall (ch : chandle) (k : bytes), rel X (Channel_SetKey ch k).
Proof. intros. intros s a s' Hr. apply upd_chan_ok in Hr. destruct Hr as (c & Hc & ->). apply (ps (l := L_key)). eapply p_key; eauto. Qed.
#[local] Hint Extern 0 (rel _ (Channel_SetKey _ _)) => apply Channel_SetKey_rel : rel.
Lemma Channel_SetMaxUsers_rel : forall (ch : chandle) (n : Z), rel X (Channel_SetMaxUsers ch n).
Proof. intros. intros s a s' Hr. apply upd_chan_ok in Hr. destruct Hr as (c & Hc & ->). apply (ps (l := L_limit)). eapply p_limit; eauto. Qed.
#[local] Hint Extern 0 (rel _ (Channel_SetMaxUsers _ _)) => apply Channel_SetMaxUsers_rel : rel.
Lemma upd_keyfile_rel : forall ch k, rel X (upd_chan ch (set_ch_keyfile k)).
Proof. intros ch k s a s' Hr. apply upd_chan_ok in Hr. destruct Hr as (c & Hc & ->). apply (ps (l := L_keyfile)). eapply p_keyfile; eauto. Qed.
#[local] Hint Extern 0 (rel _ (upd_chan _ (set_ch_keyfile _))) => apply upd_keyfile_rel : rel.
Lemma Channel_Search_read : forall n s o s', Channel_Search n s = Ok o s' -> s' = s.
Proof. intros n s o s' H. symmetry. revert H. apply (Channel_Search_rel (X := eq)). Qed.
Lemma Channel_IsMemberOf_ok : forall ch h s b s', Channel_IsMemberOf ch h s = Ok b s' -> s' = s /\ b = is_some (find (is_mb ch h) (s_members s)).
Proof.
  intros ch h s b s' H. unfold Channel_IsMemberOf in H. apply bind_ok in H. destruct H as (o & s1 & H1 & H).
  apply Get_Cl2Chan_ok in H1. destruct H1; subst. apply ret_ok in H. destruct H; subst. split; auto.
Qed.
Lemma Channel_Join_rel : forall (h : handle) (name : bytes), rel X (Channel_Join h name).
Proof. intros. unfold Channel_Join. destruct (valid_chan name) eqn:V; cbn [negb]; [|rel_auto]. 
    intros s a s' Hr. apply bind_ok in Hr. destruct Hr as (o & s1 & H1 & Hr). pose proof (Channel_Search_read _ _ _ _ H1); subst s1. 
    destruct o as [ch|]. 
    + apply bind_ok in Hr. destruct Hr as (b & s2 & H2 & Hr). apply Channel_IsMemberOf_ok in H2. destruct H2 as [-> ->]. 
      destruct (find (is_mb ch h) (s_members s)) eqn:F; cbn [is_some] in Hr. 
      * apply ret_ok in Hr. destruct Hr; subst; reflexivity. 
      * apply bind_ok in Hr. destruct Hr as (u & s3 & H3 & Hr). apply ret_ok in Hr. destruct Hr; subst. destruct u. 
        apply (ps (l := L_addmb)). eapply p_addmb; eauto. 
    + apply bind_ok in Hr. destruct Hr as (ch & s2 & H2 & Hr). apply bind_ok in Hr. destruct Hr as (u & s3 & H3 & Hr). 
      apply ret_ok in Hr. destruct Hr; subst. destruct u. apply (ps (l := L_create)). eapply p_create; eauto. Qed.
#[local] Hint Extern 0 (rel _ (Channel_Join _ _)) => apply Channel_Join_rel : rel.
Lemma Remove_Client_rel : forall (ty : remove_type) (ch : chandle) (h origin : handle) (reason : bytes) (inform : bool), rel X (Remove_Client ty ch h origin reason inform).
Proof. intros. intros s a s' H. apply (ps (l := L_remove)). eapply p_remove; eauto. Qed.
#[local] Hint Extern 0 (rel _ (Remove_Client _ _ _ _ _ _)) => apply Remove_Client_rel : rel.
Lemma Channel_Part_rel : forall (h origin : handle) (name reason : bytes), rel X (Channel_Part h origin name reason).
Proof. intros. unfold Channel_Part; rel_auto. Qed.
#[local] Hint Extern 0 (rel _ (Channel_Part _ _ _ _)) => apply Channel_Part_rel : rel.
Lemma Channel_Kick_rel : forall (peer target origin : handle) (name reason : bytes), rel X (Channel_Kick peer target origin name reason).
Proof. intros. unfold Channel_Kick; rel_auto. Qed.
#[local] Hint Extern 0 (rel _ (Channel_Kick _ _ _ _ _)) => apply Channel_Kick_rel : rel.
Lemma Channel_Quit_rel : forall (h : handle) (reason : bytes), rel X (Channel_Quit h reason).
Proof. intros. unfold Channel_Quit; rel_auto. Qed.
#[local] Hint Extern 0 (rel _ (Channel_Quit _ _)) => apply Channel_Quit_rel : rel.
Lemma Check_List_rel : forall get put h,
  (forall s l s', get s = Ok l s' -> s' = s /\ forall s1 mc m u s2, wr s s1 -> put (snd (Lists_CheckReason l mc m)) s1 = Ok u s2 -> X s1 s2) ->
  rel X (Check_List get put h).
Proof.
  intros get put h Hp s a s' Hr. unfold Check_List in Hr. apply bind_ok in Hr. destruct Hr as (l & s1 & H1 & Hr).
  destruct (Hp _ _ _ H1) as [-> Hp2]. destruct l as [|e l0]. { apply ret_ok in Hr. destruct Hr; subst. reflexivity. }
  set (l := e :: l0) in *. clearbody l.
  apply bind_ok in Hr. destruct Hr as (mc & s4 & H4 & H2). apply bind_ok in H2. destruct H2 as (m & s5 & H5 & H2).
  assert (wr s s5) as W. { transitivity s4; [revert H4; apply Client_MaskCloaked_rel | revert H5; apply Client_Mask_rel]. }
  destruct (Lists_CheckReason l mc m) as [r0 l'] eqn:Er. apply bind_ok in H2. destruct H2 as (u & s6 & H6 & H2). apply ret_ok in H2. destruct H2; subst.
  transitivity s5; [apply wr_incl; auto|]. eapply Hp2; eauto. rewrite Er. exact H6.
Qed.
Ltac chk := apply rel_bind; [|intro; apply rel_ret]; apply Check_List_rel; intros s l s' Hg;
  apply bind_ok in Hg; destruct Hg as (c & s3 & H1 & H3); apply chan_ok in H1; destruct H1 as [H1 ->];
  apply ret_ok in H3; destruct H3; subst; split; auto; intros s1 mc m u s2 W Hu;
  apply upd_chan_ok in Hu; destruct Hu as (c2 & Hc2 & ->); pose proof (w_chans _ _ (wr_same _ _ W)) as Ec; rewrite Ec in Hc2;
  rewrite H1 in Hc2; inversion Hc2; subst c2; apply (ps (l := L_check)); eapply p_check; [rewrite Ec; eauto|]; constructor.
Ltac chki := apply rel_bind; [|intro; apply rel_ret]; apply Check_List_rel; intros s l s' Hg;
  apply bind_ok in Hg; destruct Hg as (c & s3 & H1 & H3); apply chan_ok in H1; destruct H1 as [H1 ->];
  apply ret_ok in H3; destruct H3; subst; split; auto; intros s1 mc m u s2 W Hu;
  apply upd_chan_ok in Hu; destruct Hu as (c2 & Hc2 & ->); pose proof (w_chans _ _ (wr_same _ _ W)) as Ec; rewrite Ec in Hc2;
  rewrite H1 in Hc2; inversion Hc2; subst c2; apply (ps (l := L_useinv)); eapply p_useinv; [rewrite Ec; eauto|]; constructor.
Lemma Check_Bans_rel : forall (ch : chandle) (h : handle), rel X (Check_Bans ch h).
Proof. intros. unfold Check_Bans. chk. Qed.
#[local] Hint Extern 0 (rel _ (Check_Bans _ _)) => apply Check_Bans_rel : rel.
Lemma Check_Excepts_rel : forall (ch : chandle) (h : handle), rel X (Check_Excepts ch h).
Proof. intros. unfold Check_Excepts. chk. Qed.
#[local] Hint Extern 0 (rel _ (Check_Excepts _ _)) => apply Check_Excepts_rel : rel.
Lemma Check_Invites_rel : forall (ch : chandle) (h : handle), rel X (Check_Invites ch h).
Proof. intros. unfold Check_Invites. chki. Qed.
#[local] Hint Extern 0 (rel _ (Check_Invites _ _)) => apply Check_Invites_rel : rel.
Lemma Can_Send_To_Channel_rel : forall (ch : chandle) (from : handle), rel X (Can_Send_To_Channel ch from).
Proof. intros. unfold Can_Send_To_Channel; rel_auto. Qed.
#[local] Hint Extern 0 (rel _ (Can_Send_To_Channel _ _)) => apply Can_Send_To_Channel_rel : rel.
Lemma Channel_Write_rel : forall (ch : chandle) (from client : handle) (cmd : bytes) (senderrors : bool) (text : bytes), rel X (Channel_Write ch from client cmd senderrors text).
Proof. intros. unfold Channel_Write; rel_auto. Qed.
#[local] Hint Extern 0 (rel _ (Channel_Write _ _ _ _ _ _)) => apply Channel_Write_rel : rel.
Lemma Channel_AddBan_rel : forall (ch : chandle) (mask who : bytes), rel X (Channel_AddBan ch mask who).
Proof. intros. unfold Channel_AddBan. apply rel_bind; [rel_auto|intro t]. intros s a s' Hr. apply upd_chan_ok in Hr. destruct Hr as (c & Hc & ->). apply (ps (l := L_lists)). eapply p_lists; eauto. constructor; [constructor|..]; apply noonce_add. Qed.
#[local] Hint Extern 0 (rel _ (Channel_AddBan _ _ _)) => apply Channel_AddBan_rel : rel.
Lemma Channel_AddExcept_rel : forall (ch : chandle) (mask who : bytes), rel X (Channel_AddExcept ch mask who).
Proof. intros. unfold Channel_AddExcept. apply rel_bind; [rel_auto|intro t]. intros s a s' Hr. apply upd_chan_ok in Hr. destruct Hr as (c & Hc & ->). apply (ps (l := L_lists)). eapply p_lists; eauto. constructor; [constructor|..]; apply noonce_add. Qed.
#[local] Hint Extern 0 (rel _ (Channel_AddExcept _ _ _)) => apply Channel_AddExcept_rel : rel.
Lemma Channel_AddInvite_rel : forall (ch : chandle) (mask : bytes) (once : bool) (who : bytes), rel X (Channel_AddInvite ch mask once who).
Proof. intros. unfold Channel_AddInvite. apply rel_bind; [rel_auto|intro t]. intros s a s' Hr. apply upd_chan_ok in Hr. destruct Hr as (c & Hc & ->). apply (ps (l := L_addinv)). eapply p_addinv; eauto. constructor. Qed.
#[local] Hint Extern 0 (rel _ (Channel_AddInvite _ _ _ _)) => apply Channel_AddInvite_rel : rel.
Lemma Client_RegisterWhowas_rel : forall (h : handle), rel X (Client_RegisterWhowas h).
Proof. intros. intros s a s' Hr. destruct a. apply (ps (l := L_whowas)). eapply p_whowas; eauto. Qed.
#[local] Hint Extern 0 (rel _ (Client_RegisterWhowas _)) => apply Client_RegisterWhowas_rel : rel.
Lemma Destroy_UserOrService_rel : forall (h : handle) (txt : bytes) (fwd : option bytes) (sendquit : bool), rel X (Destroy_UserOrService h txt fwd sendquit).
Proof. intros. unfold Destroy_UserOrService; rel_auto. Qed.
#[local] Hint Extern 0 (rel _ (Destroy_UserOrService _ _ _ _)) => apply Destroy_UserOrService_rel : rel.
Lemma set_class_rel : forall s1 c l l0 u s2, lop (match c with CLASS_GLINE => s_glines s1 | CLASS_KLINE => s_klines s1 end) l -> l0 = l -> set_class c l0 s1 = Ok u s2 -> X s1 s2.
Proof.
  intros s1 c l l0 u s2 Hl -> Hr. unfold set_class in Hr. apply modify_ok in Hr. subst. apply (ps (l := L_class)).
  destruct c; [apply p_glines | apply p_klines]; auto.
Qed.
Lemma Class_Check_rel : forall c h, rel X (Check_List (class_list c) (set_class c) h).
Proof.
  intros c h. apply Check_List_rel. intros s l s' Hg. unfold class_list in Hg. apply gets_ok in Hg. destruct Hg as [-> ->]. split; auto.
  intros s1 mc m u s2 W Hu. destruct (wr_same _ _ W). eapply set_class_rel; [|reflexivity|exact Hu].
  destruct c; [rewrite w_glines|rewrite w_klines]; constructor.
Qed.
#[local] Hint Extern 0 (rel _ (Check_List (class_list _) (set_class _) _)) => apply Class_Check_rel : rel.
Lemma Class_GetMemberReason_rel : forall (c : class) (h : handle), rel X (Class_GetMemberReason c h).
Proof. intros. unfold Class_GetMemberReason; rel_auto. Qed.
#[local] Hint Extern 0 (rel _ (Class_GetMemberReason _ _)) => apply Class_GetMemberReason_rel : rel.
Ltac cls := intros s a s' Hr; apply bind_ok in Hr; destruct Hr as (l & s1 & H1 & Hr); unfold class_list in H1; apply gets_ok in H1; destruct H1; subst.
Lemma Class_AddMask_rel : forall (c : class) (pattern : bytes) (valid : Z) (reason : bytes), rel X (Class_AddMask c pattern valid reason).
Proof. intros. unfold Class_AddMask. cls. eapply set_class_rel; [|reflexivity|exact Hr]. destruct c; constructor. Qed.
#[local] Hint Extern 0 (rel _ (Class_AddMask _ _ _ _)) => apply Class_AddMask_rel : rel.
Lemma Class_DeleteMask_rel : forall (c : class) (pattern : bytes), rel X (Class_DeleteMask c pattern).
Proof. intros. unfold Class_DeleteMask. cls. eapply set_class_rel; [|reflexivity|exact Hr]. destruct c; constructor. Qed.
#[local] Hint Extern 0 (rel _ (Class_DeleteMask _ _)) => apply Class_DeleteMask_rel : rel.
Lemma Class_Expire_one_rel : forall (c : class) (name : bytes), rel X (Class_Expire_one c name).
Proof. intros. unfold Class_Expire_one. cls. apply bind_ok in Hr. destruct Hr as (t & s1 & H1 & Hr). unfold now in H1; apply gets_ok in H1; destruct H1; subst. 
    destruct (Lists_Expire _ _) as [k d] eqn:E in Hr. eapply set_class_rel; [|reflexivity|exact Hr]. 
    replace k with (fst (Lists_Expire (s_now s) (match c with CLASS_GLINE => s_glines s | CLASS_KLINE => s_klines s end))) by (destruct c; rewrite E; reflexivity). destruct c; constructor. Qed.
#[local] Hint Extern 0 (rel _ (Class_Expire_one _ _)) => apply Class_Expire_one_rel : rel.
Lemma Class_Expire_rel : rel X (Class_Expire).
Proof. intros. unfold Class_Expire; rel_auto. Qed.
#[local] Hint Extern 0 (rel _ (Class_Expire)) => apply Class_Expire_rel : rel.
Lemma part_all_rel : forall (n : nat) (client target : handle), rel X (part_all n client target).
Proof. intros. revert client target; induction n; intros; simpl; rel_auto. Qed.
#[local] Hint Extern 0 (rel _ (part_all _ _ _)) => apply part_all_rel : rel.
Lemma part_from_all_channels_rel : forall (client target : handle), rel X (part_from_all_channels client target).
Proof. intros. unfold part_from_all_channels; rel_auto. Qed.
#[local] Hint Extern 0 (rel _ (part_from_all_channels _ _)) => apply part_from_all_channels_rel : rel.
Lemma join_allowed_rel : forall (client : handle) (ch : chandle) (channame : bytes) (key : option bytes), rel X (join_allowed client ch channame key).
Proof. intros. unfold join_allowed; rel_auto. Qed.
#[local] Hint Extern 0 (rel _ (join_allowed _ _ _ _)) => apply join_allowed_rel : rel.
Lemma join_set_channelmodes_rel : forall (ch : chandle) (target : handle) (flags : option bytes), rel X (join_set_channelmodes ch target flags).
Proof. intros. unfold join_set_channelmodes; rel_auto. Qed.
#[local] Hint Extern 0 (rel _ (join_set_channelmodes _ _ _)) => apply join_set_channelmodes_rel : rel.
Lemma join_check_rel : forall (client target : handle) (channame : bytes) (o : option chandle) (key flags : option bytes), rel X (join_check client target channame o key flags).
Proof. intros. unfold join_check; rel_auto. Qed.
#[local] Hint Extern 0 (rel _ (join_check _ _ _ _ _ _)) => apply join_check_rel : rel.
Lemma join_one_rel : forall (client target : handle) (channame : bytes) (key : option bytes), rel X (join_one client target channame key).
Proof. intros. unfold join_one; rel_auto. Qed.
#[local] Hint Extern 0 (rel _ (join_one _ _ _ _)) => apply join_one_rel : rel.
Lemma join_loop_rel : forall (client target : handle) (chans keys : list bytes), rel X (join_loop client target chans keys).
Proof. intros. revert keys; induction chans; intros; simpl; rel_auto. Qed.
#[local] Hint Extern 0 (rel _ (join_loop _ _ _ _)) => apply join_loop_rel : rel.
Lemma IRC_JOIN_rel : forall (client : handle) (req : request), rel X (IRC_JOIN client req).
Proof. intros. unfold IRC_JOIN; rel_auto. Qed.
#[local] Hint Extern 0 (rel _ (IRC_JOIN _ _)) => apply IRC_JOIN_rel : rel.
Lemma IRC_PART_rel : forall (client : handle) (req : request), rel X (IRC_PART client req).
Proof. intros. unfold IRC_PART; rel_auto. Qed.
#[local] Hint Extern 0 (rel _ (IRC_PART _ _)) => apply IRC_PART_rel : rel.
Lemma IRC_TOPIC_rel : forall (client : handle) (req : request), rel X (IRC_TOPIC client req).
Proof. intros. unfold IRC_TOPIC; rel_auto. Qed.
#[local] Hint Extern 0 (rel _ (IRC_TOPIC _ _)) => apply IRC_TOPIC_rel : rel.
Lemma search_create_rel : forall n, rel X (o <- Channel_Search n ;; match o with Some ch => ret ch | None => chaninfo_create n end).
Proof.
  intros n s a s' Hr. apply bind_ok in Hr. destruct Hr as (o & s1 & H1 & Hr). pose proof (Channel_Search_read _ _ _ _ H1); subst s1.
  destruct o. { apply ret_ok in Hr. destruct Hr; subst. reflexivity. }
  apply (ps (l := L_create_any)). eapply p_create_any; eauto.
Qed.
Lemma modes_set_rel : forall ch m (K : M unit), rel X K -> rel X (ms <- Channel_Modes ch ;; whenM (beq ms []) (Channel_SetModes ch m ;;; K)).
Proof.
  intros ch m K HK s a s' Hr. apply bind_ok in Hr. destruct Hr as (ms & s1 & H1 & Hr). unfold Channel_Modes in H1. apply bind_ok in H1. destruct H1 as (c & s2 & H1 & H2). apply chan_ok in H1. destruct H1 as [H1 ->]. apply ret_ok in H2. destruct H2 as [-> ->].
  unfold whenM in Hr. destruct (beq (ch_modes c) []) eqn:E; [|apply ret_ok in Hr; destruct Hr as [_ ->]; reflexivity]. apply beq_eq in E.
  apply bind_ok in Hr. destruct Hr as (v & s3 & H3 & H2). transitivity s3; [|eapply HK; eauto].
  unfold Channel_SetModes in H3. apply bind_ok in H3. destruct H3 as (u0 & s4 & H4 & H3). apply modify_ok in H4. subst s4. apply upd_chan_ok in H3. destruct H3 as (c2 & _ & ->).
  apply (ps (l := L_setmodes)). eapply p_setmodes; eauto.
Qed.
Lemma IRC_CHANINFO_rel : forall (client : handle) (req : request), rel X (IRC_CHANINFO client req).
Proof. intros. unfold IRC_CHANINFO. cbv zeta. match goal with |- rel _ (if ?b then _ else _) => destruct b; [rel_auto|] end. 
    apply with_sender_rel; intro from. apply bind_assoc_rel. apply rel_bind; [apply search_create_rel|intro ch]. 
    apply rel_bind; [match goal with |- rel _ (if ?b then _ else _) => destruct b; [apply modes_set_rel|]; rel_auto end|intro]. rel_auto. Qed.
#[local] Hint Extern 0 (rel _ (IRC_CHANINFO _ _)) => apply IRC_CHANINFO_rel : rel.
Lemma IRC_AWAY_rel : forall (client : handle) (req : request), rel X (IRC_AWAY client req).
Proof. intros. unfold IRC_AWAY. destruct (_ && _); [|rel_auto]. apply rel_bind; [rel_auto|intro]. apply rel_bind; [unfold void; apply rel_bind; [apply Client_ModeAdd_rel; discriminate|intro; rel_auto]|intro; rel_auto]. Qed.
#[local] Hint Extern 0 (rel _ (Client_ModeAdd _ _)) => apply Client_ModeAdd_any_rel : rel.
Lemma user_letter_rel : forall (client origin : handle) (set : bool) (c : ascii), rel X (user_letter client origin set c).
Proof. intros. unfold user_letter; rel_auto. Qed.
#[local] Hint Extern 0 (rel _ (user_letter _ _ _ _)) => apply user_letter_rel : rel.
Lemma user_modes_rel : forall (n : nat) (client origin target : handle) (pos : bytes) (rest : list bytes) (set : bool) (the_modes : bytes) (hh : bool), rel X (user_modes n client origin target pos rest set the_modes hh).
Proof. intros. revert pos rest set the_modes hh; induction n; intros; simpl; rel_auto. Qed.
#[local] Hint Extern 0 (rel _ (user_modes _ _ _ _ _ _ _ _ _)) => apply user_modes_rel : rel.
Lemma Client_Mode_rel : forall (client : handle) (req : request) (origin target : handle), rel X (Client_Mode client req origin target).
Proof. intros. unfold Client_Mode; rel_auto. Qed.
#[local] Hint Extern 0 (rel _ (Client_Mode _ _ _ _)) => apply Client_Mode_rel : rel.
Lemma Add_To_List_rel : forall (what : ascii) (pref client : handle) (ch : chandle) (pattern : bytes), rel X (Add_To_List what pref client ch pattern).
Proof. intros. unfold Add_To_List; rel_auto. Qed.
#[local] Hint Extern 0 (rel _ (Add_To_List _ _ _ _ _)) => apply Add_To_List_rel : rel.
Lemma lists_del_rel : forall ch what mask, rel X (upd_chan ch (fun c =>
      if Ascii.eqb what "I" then set_ch_invites (Lists_Del (ch_invites c) mask) c
      else if Ascii.eqb what "b" then set_ch_bans (Lists_Del (ch_bans c) mask) c
      else set_ch_excepts (Lists_Del (ch_excepts c) mask) c)).
Proof.
  intros ch what mask s a s' Hr. apply upd_chan_ok in Hr. destruct Hr as (c & Hc & ->). apply (ps (l := L_lists)). eapply p_lists; eauto.
  destruct (Ascii.eqb what "I"); [|destruct (Ascii.eqb what "b")]; constructor; try constructor; apply noonce_del.
Qed.
Lemma Del_From_List_rel : forall (what : ascii) (pref client : handle) (ch : chandle) (pattern : bytes), rel X (Del_From_List what pref client ch pattern).
Proof. intros. unfold Del_From_List. apply rel_bind; [rel_auto|intro c]. cbv zeta. match goal with |- rel _ (if ?b then _ else _) => destruct b end; [rel_auto|]. apply rel_bind; [apply lists_del_rel|rel_auto]. Qed.
#[local] Hint Extern 0 (rel _ (Del_From_List _ _ _ _ _)) => apply Del_From_List_rel : rel.
Lemma deny_rel : forall (origin : handle) (ch : chandle) (msg : string), rel X (deny origin ch msg).
Proof. intros. unfold deny; rel_auto. Qed.
#[local] Hint Extern 0 (rel _ (deny _ _ _)) => apply deny_rel : rel.
Lemma deny_exit_rel : forall (origin : handle) (ch : chandle) (msg : string), rel X (deny_exit origin ch msg).
Proof. intros. unfold deny_exit; rel_auto. Qed.
#[local] Hint Extern 0 (rel _ (deny_exit _ _ _)) => apply deny_exit_rel : rel.
Lemma deny_next_rel : forall (origin : handle) (ch : chandle) (msg : string) (st : cmst), rel X (deny_next origin ch msg st).
Proof. intros. unfold deny_next; rel_auto. Qed.
#[local] Hint Extern 0 (rel _ (deny_next _ _ _ _)) => apply deny_next_rel : rel.
Lemma exit_unless_machine_rel : forall (is_machine : bool) (m : M bool), rel X m -> rel X (exit_unless_machine is_machine m).
Proof. intros. unfold exit_unless_machine; rel_auto. Qed.
#[local] Hint Extern 0 (rel _ (exit_unless_machine _ _)) => apply exit_unless_machine_rel : rel.
Lemma letter_flag_rel : forall (origin : handle) (ch : chandle) (is_oper : bool) (is_machine : bool) (st : cmst) (c : ascii), rel X (letter_flag origin ch is_oper is_machine st c).
Proof. intros. unfold letter_flag; rel_auto. Qed.
#[local] Hint Extern 0 (rel _ (letter_flag _ _ _ _ _ _)) => apply letter_flag_rel : rel.
Lemma letter_k_rel : forall (client : handle) (origin : handle) (command : bytes) (ch : chandle) (is_oper : bool) (is_machine : bool) (st : cmst) (c : ascii), rel X (letter_k client origin command ch is_oper is_machine st c).
Proof. intros. unfold letter_k; rel_auto. Qed.
#[local] Hint Extern 0 (rel _ (letter_k _ _ _ _ _ _ _ _)) => apply letter_k_rel : rel.
Lemma letter_l_rel : forall (client : handle) (origin : handle) (command : bytes) (ch : chandle) (is_oper : bool) (is_machine : bool) (st : cmst) (c : ascii), rel X (letter_l client origin command ch is_oper is_machine st c).
Proof. intros. unfold letter_l; rel_auto. Qed.
#[local] Hint Extern 0 (rel _ (letter_l _ _ _ _ _ _ _ _)) => apply letter_l_rel : rel.
Lemma letter_OP_rel : forall (origin : handle) (ch : chandle) (is_oper : bool) (is_machine : bool) (st : cmst) (c : ascii), rel X (letter_OP origin ch is_oper is_machine st c).
Proof. intros. unfold letter_OP; rel_auto. Qed.
#[local] Hint Extern 0 (rel _ (letter_OP _ _ _ _ _ _)) => apply letter_OP_rel : rel.
Lemma letter_user_rel : forall (origin : handle) (ch : chandle) (is_oper : bool) (is_machine : bool) (st : cmst) (c : ascii), rel X (letter_user origin ch is_oper is_machine st c).
Proof. intros. unfold letter_user; rel_auto. Qed.
#[local] Hint Extern 0 (rel _ (letter_user _ _ _ _ _ _)) => apply letter_user_rel : rel.
Lemma letter_list_rel : forall (client : handle) (origin : handle) (ch : chandle) (is_oper : bool) (is_machine : bool) (st : cmst) (c : ascii), rel X (letter_list client origin ch is_oper is_machine st c).
Proof. intros. unfold letter_list; rel_auto. Qed.
#[local] Hint Extern 0 (rel _ (letter_list _ _ _ _ _ _ _)) => apply letter_list_rel : rel.
Lemma chan_letter_rel : forall (client : handle) (origin : handle) (command : bytes) (ch : chandle) (is_oper : bool) (is_machine : bool) (st : cmst) (c : ascii), rel X (chan_letter client origin command ch is_oper is_machine st c).
Proof. intros. unfold chan_letter; rel_auto. Qed.
#[local] Hint Extern 0 (rel _ (chan_letter _ _ _ _ _ _ _ _)) => apply chan_letter_rel : rel.
Lemma chan_apply_rel : forall (origin : handle) (ch : chandle) (st : cmst) (x : ascii) (argadd : bytes) (target : option handle), rel X (chan_apply origin ch st x argadd target).
Proof. intros. unfold chan_apply; rel_auto. Qed.
#[local] Hint Extern 0 (rel _ (chan_apply _ _ _ _ _ _)) => apply chan_apply_rel : rel.
Lemma chan_privs_rel : forall (client : handle) (ch : chandle) (is_oper : bool) (is_machine : bool) (st : cmst), rel X (chan_privs client ch is_oper is_machine st).
Proof. intros. unfold chan_privs; rel_auto. Qed.
#[local] Hint Extern 0 (rel _ (chan_privs _ _ _ _ _)) => apply chan_privs_rel : rel.
Lemma chan_modes_rel : forall (client : handle) (origin : handle) (command : bytes) (ch : chandle) (is_oper : bool) (is_machine : bool) (n : nat) (st : cmst), rel X (chan_modes client origin command ch is_oper is_machine n st).
Proof. intros. revert st; induction n; intros; cbn [chan_modes]; rel_auto. Qed.
#[local] Hint Extern 0 (rel _ (chan_modes _ _ _ _ _ _ _ _)) => apply chan_modes_rel : rel.
Lemma chan_modes_reply_rel : forall (client origin : handle) (ch : chandle) (the_modes the_args : bytes) (ok : bool), rel X (chan_modes_reply client origin ch the_modes the_args ok).
Proof. intros. unfold chan_modes_reply; rel_auto. Qed.
#[local] Hint Extern 0 (rel _ (chan_modes_reply _ _ _ _ _ _)) => apply chan_modes_reply_rel : rel.
Lemma Channel_Mode_rel : forall (client : handle) (req : request) (origin : handle) (ch : chandle), rel X (Channel_Mode client req origin ch).
Proof. intros. unfold Channel_Mode; rel_auto. Qed.
#[local] Hint Extern 0 (rel _ (Channel_Mode _ _ _ _)) => apply Channel_Mode_rel : rel.
Lemma IRC_MODE_rel : forall (client : handle) (req : request), rel X (IRC_MODE client req).
Proof. intros. unfold IRC_MODE; rel_auto. Qed.
#[local] Hint Extern 0 (rel _ (IRC_MODE _ _)) => apply IRC_MODE_rel : rel.
#[local] Hint Extern 0 (rel _ (IRC_AWAY _ _)) => apply IRC_AWAY_rel : rel.
End R.
#[export] Hint Extern 0 (rel _ (Client_SetHostname _ _)) => apply Client_SetHostname_rel : rel.
#[export] Hint Extern 0 (rel _ (Client_SetIPAText _ _)) => apply Client_SetIPAText_rel : rel.
#[export] Hint Extern 0 (rel _ (Client_SetUser _ _ _)) => apply Client_SetUser_rel : rel.
#[export] Hint Extern 0 (rel _ (Client_SetInfo _ _)) => apply Client_SetInfo_rel : rel.
#[export] Hint Extern 0 (rel _ (Client_SetFlags _ _)) => apply Client_SetFlags_rel : rel.
#[export] Hint Extern 0 (rel _ (Client_UpdateCloakedHostname _ _ _)) => apply Set_Cloaked_rel : rel.
#[export] Hint Extern 0 (rel _ (Client_SetAccountName _ _)) => apply Client_SetAccountName_rel : rel.
#[export] Hint Extern 0 (rel _ (Client_SetAway _ _)) => apply Client_SetAway_rel : rel.
#[export] Hint Extern 0 (rel _ (Client_SetHops _ _)) => apply Client_SetHops_rel : rel.
#[export] Hint Extern 0 (rel _ (Client_SetToken _ _)) => apply Client_SetToken_rel : rel.
#[export] Hint Extern 0 (rel _ (Client_ModeDel _ _)) => apply Client_ModeDel_rel : rel.
#[export] Hint Extern 0 (rel _ (Conn_SetPassword _ _)) => apply Conn_SetPassword_rel : rel.
#[export] Hint Extern 0 (rel _ (Conn_UpdatePing _ _)) => apply Conn_UpdatePing_rel : rel.
#[export] Hint Extern 0 (rel _ (upd_sv _ _)) => apply upd_sv_rel : rel.
#[export] Hint Extern 0 (rel _ (Conf_UnsetServer _)) => apply Conf_UnsetServer_rel : rel.
#[export] Hint Extern 0 (rel _ (Channel_ModeAdd _ _)) => apply Channel_ModeAdd_rel : rel.
#[export] Hint Extern 0 (rel _ (Channel_ModeDel _ _)) => apply Channel_ModeDel_rel : rel.
#[export] Hint Extern 0 (rel _ (Channel_UserModeAdd _ _ _)) => apply Channel_UserModeAdd_rel : rel.
#[export] Hint Extern 0 (rel _ (Channel_UserModeDel _ _ _)) => apply Channel_UserModeDel_rel : rel.
#[export] Hint Extern 0 (rel _ (Channel_SetTopic _ _ _)) => apply Channel_SetTopic_rel : rel.
#[export] Hint Extern 0 (rel _ (Channel_SetKey _ _)) => apply Channel_SetKey_rel : rel.
#[export] Hint Extern 0 (rel _ (Channel_SetMaxUsers _ _)) => apply Channel_SetMaxUsers_rel : rel.
#[export] Hint Extern 0 (rel _ (Channel_Join _ _)) => apply Channel_Join_rel : rel.
#[export] Hint Extern 0 (rel _ (Remove_Client _ _ _ _ _ _)) => apply Remove_Client_rel : rel.
#[export] Hint Extern 0 (rel _ (Channel_Part _ _ _ _)) => apply Channel_Part_rel : rel.
#[export] Hint Extern 0 (rel _ (Channel_Kick _ _ _ _ _)) => apply Channel_Kick_rel : rel.
#[export] Hint Extern 0 (rel _ (Channel_Quit _ _)) => apply Channel_Quit_rel : rel.
#[export] Hint Extern 0 (rel _ (Check_Bans _ _)) => apply Check_Bans_rel : rel.
#[export] Hint Extern 0 (rel _ (Check_Excepts _ _)) => apply Check_Excepts_rel : rel.
#[export] Hint Extern 0 (rel _ (Check_Invites _ _)) => apply Check_Invites_rel : rel.
#[export] Hint Extern 0 (rel _ (Can_Send_To_Channel _ _)) => apply Can_Send_To_Channel_rel : rel.
#[export] Hint Extern 0 (rel _ (Channel_Write _ _ _ _ _ _)) => apply Channel_Write_rel : rel.
#[export] Hint Extern 0 (rel _ (Channel_AddBan _ _ _)) => apply Channel_AddBan_rel : rel.
#[export] Hint Extern 0 (rel _ (Channel_AddExcept _ _ _)) => apply Channel_AddExcept_rel : rel.
#[export] Hint Extern 0 (rel _ (Channel_AddInvite _ _ _ _)) => apply Channel_AddInvite_rel : rel.
#[export] Hint Extern 0 (rel _ (Client_RegisterWhowas _)) => apply Client_RegisterWhowas_rel : rel.
#[export] Hint Extern 0 (rel _ (Destroy_UserOrService _ _ _ _)) => apply Destroy_UserOrService_rel : rel.
#[export] Hint Extern 0 (rel _ (Class_GetMemberReason _ _)) => apply Class_GetMemberReason_rel : rel.
#[export] Hint Extern 0 (rel _ (Class_AddMask _ _ _ _)) => apply Class_AddMask_rel : rel.
#[export] Hint Extern 0 (rel _ (Class_DeleteMask _ _)) => apply Class_DeleteMask_rel : rel.
#[export] Hint Extern 0 (rel _ (Class_Expire_one _ _)) => apply Class_Expire_one_rel : rel.
#[export] Hint Extern 0 (rel _ (Class_Expire)) => apply Class_Expire_rel : rel.
#[export] Hint Extern 0 (rel _ (part_all _ _ _)) => apply part_all_rel : rel.
#[export] Hint Extern 0 (rel _ (part_from_all_channels _ _)) => apply part_from_all_channels_rel : rel.
#[export] Hint Extern 0 (rel _ (join_allowed _ _ _ _)) => apply join_allowed_rel : rel.
#[export] Hint Extern 0 (rel _ (join_set_channelmodes _ _ _)) => apply join_set_channelmodes_rel : rel.
#[export] Hint Extern 0 (rel _ (join_check _ _ _ _ _ _)) => apply join_check_rel : rel.
#[export] Hint Extern 0 (rel _ (join_one _ _ _ _)) => apply join_one_rel : rel.
#[export] Hint Extern 0 (rel _ (join_loop _ _ _ _)) => apply join_loop_rel : rel.
#[export] Hint Extern 0 (rel _ (IRC_JOIN _ _)) => apply IRC_JOIN_rel : rel.
#[export] Hint Extern 0 (rel _ (IRC_PART _ _)) => apply IRC_PART_rel : rel.
#[export] Hint Extern 0 (rel _ (IRC_TOPIC _ _)) => apply IRC_TOPIC_rel : rel.
#[export] Hint Extern 0 (rel _ (IRC_CHANINFO _ _)) => apply IRC_CHANINFO_rel : rel.
#[export] Hint Extern 0 (rel _ (user_letter _ _ _ _)) => apply user_letter_rel : rel.
#[export] Hint Extern 0 (rel _ (user_modes _ _ _ _ _ _ _ _ _)) => apply user_modes_rel : rel.
#[export] Hint Extern 0 (rel _ (Client_Mode _ _ _ _)) => apply Client_Mode_rel : rel.
#[export] Hint Extern 0 (rel _ (Add_To_List _ _ _ _ _)) => apply Add_To_List_rel : rel.
#[export] Hint Extern 0 (rel _ (Del_From_List _ _ _ _ _)) => apply Del_From_List_rel : rel.
#[export] Hint Extern 0 (rel _ (deny _ _ _)) => apply deny_rel : rel.
#[export] Hint Extern 0 (rel _ (deny_exit _ _ _)) => apply deny_exit_rel : rel.
#[export] Hint Extern 0 (rel _ (deny_next _ _ _ _)) => apply deny_next_rel : rel.
#[export] Hint Extern 0 (rel _ (exit_unless_machine _ _)) => apply exit_unless_machine_rel : rel.
#[export] Hint Extern 0 (rel _ (letter_flag _ _ _ _ _ _)) => apply letter_flag_rel : rel.
#[export] Hint Extern 0 (rel _ (letter_k _ _ _ _ _ _ _ _)) => apply letter_k_rel : rel.
#[export] Hint Extern 0 (rel _ (letter_l _ _ _ _ _ _ _ _)) => apply letter_l_rel : rel.
#[export] Hint Extern 0 (rel _ (letter_OP _ _ _ _ _ _)) => apply letter_OP_rel : rel.
#[export] Hint Extern 0 (rel _ (letter_user _ _ _ _ _ _)) => apply letter_user_rel : rel.
#[export] Hint Extern 0 (rel _ (letter_list _ _ _ _ _ _ _)) => apply letter_list_rel : rel.
#[export] Hint Extern 0 (rel _ (chan_letter _ _ _ _ _ _ _ _)) => apply chan_letter_rel : rel.
#[export] Hint Extern 0 (rel _ (chan_apply _ _ _ _ _ _)) => apply chan_apply_rel : rel.
#[export] Hint Extern 0 (rel _ (chan_privs _ _ _ _ _)) => apply chan_privs_rel : rel.
#[export] Hint Extern 0 (rel _ (chan_modes _ _ _ _ _ _ _ _)) => apply chan_modes_rel : rel.
#[export] Hint Extern 0 (rel _ (chan_modes_reply _ _ _ _ _ _)) => apply chan_modes_reply_rel : rel.
#[export] Hint Extern 0 (rel _ (Channel_Mode _ _ _ _)) => apply Channel_Mode_rel : rel.
#[export] Hint Extern 0 (rel _ (IRC_MODE _ _)) => apply IRC_MODE_rel : rel.
#[export] Hint Extern 0 (rel _ (IRC_AWAY _ _)) => apply IRC_AWAY_rel : rel.
