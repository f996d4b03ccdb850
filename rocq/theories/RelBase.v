(** The elementary changes of the state outside of the write layer, each with the facts that are
    known when it is made.  [pstep l s s'] is an elementary change of kind [l]; the other Rel files
    prove that every function of the model only performs such changes, so that an invariant, or a
    relation between states, has to be checked for the kinds of changes only. *)
From Coq Require Import List Ascii String ZArith NArith Bool Lia.
From Coq Require Import Relations RelationClasses.
From Verif Require Import Bytes Match Lists Hash ParseReq State Messages Monad Core Write Info Chan Mode Msg Login Oper Server Dispatch Conn Rel RelWrite RelInfo.
Import ListNotations.
Local Open Scope m_scope.

Definition if_odd (b : bool) (o : oddity) (s : state) : state := if b then set_s_odd (o :: s_odd s) s else s.

(** ---- predicates used in the conditions ---- *)

(** the client of some connection *)
Definition attached (h : handle) (s : state) : Prop :=
  exists i c, assoc i (s_conns s) = Some c /\ co_client c = Some h.
(** IDs for which uniqueness can be expected *)
Definition plain_id (id : bytes) : Prop := id <> [] /\ List.length id < 63 /\ memb "!" id = false.
(** no listed client (with a correct hash value) but [h] has this ID *)
Definition id_free (h : handle) (id : bytes) (s : state) : Prop :=
  plain_id id -> forall x c, In x (s_clients s) -> assoc x (s_heap s) = Some c -> x <> h ->
    cl_hash c = Hash (cl_id c) -> caseeq (cl_id c) id = false.
Definition userish (t : ctype) : bool := match t with T_USER | T_SERVICE => true | _ => false end.
(** types of local clients that have a checked nickname *)
Definition nickish (t : ctype) : bool := match t with T_USER | T_GOTNICK | T_WAITAUTHPING | T_WAITCAPEND => true | _ => false end.

(** types of local clients that can have a nickname, or none yet *)
Definition prereg (t : ctype) : bool := nickish t || match t with T_UNKNOWN | T_GOTPASS | T_GOTUSER => true | _ => false end.

(** sizes of the fields of a CLIENT (src/ngircd/client.h:41-71) *)
Definition osize (n : nat) (o : option bytes) : Prop := match o with Some t => List.length t < n | None => True end.
Record csizes (c : client) : Prop := mk_csizes {
  sz_host : List.length (cl_host c) < CLIENT_HOST_LEN; sz_cloaked : osize CLIENT_HOST_LEN (cl_cloaked c);
  sz_ipa : osize CLIENT_HOST_LEN (cl_ipa c); sz_user : List.length (cl_user c) < CLIENT_USER_LEN;
  sz_info : List.length (cl_info c) < CLIENT_INFO_LEN; sz_away : osize CLIENT_AWAY_LEN (cl_away c);
  sz_flags : List.length (cl_flags c) < CLIENT_FLAGS_LEN; sz_account : osize CLIENT_NICK_LEN (cl_account c) }.

(** [c'] differs from [c] only in descriptive fields *)
Record cmeta (c c' : client) : Prop := mk_cmeta {
  me_time : cl_starttime c' = cl_starttime c; me_id : cl_id c' = cl_id c; me_hash : cl_hash c' = cl_hash c;
  me_type : cl_type c' = cl_type c; me_conn : cl_conn c' = cl_conn c;
  me_intro : cl_introducer c' = cl_introducer c; me_top : cl_topserver c' = cl_topserver c;
  me_modes : cl_modes c' = cl_modes c; me_mytoken : cl_mytoken c' = cl_mytoken c;
  me_sizes : csizes c -> List.length (cl_id c) < CLIENT_ID_LEN -> csizes c' }.

(** ... and not in the capabilities *)
Record cattr (c c' : client) : Prop := mk_cattr {
  at_meta : cmeta c c'; at_pending : cl_cap_pending c' = cl_cap_pending c; at_multi : cl_cap_multi c' = cl_cap_multi c }.
(** changes of the away message and the cloaked host name only *)
Record caway (c c' : client) : Prop := mk_caway {
  aw_meta : cmeta c c'; aw_user : cl_user c' = cl_user c; aw_host : cl_host c' = cl_host c;
  aw_pending : cl_cap_pending c' = cl_cap_pending c; aw_multi : cl_cap_multi c' = cl_cap_multi c }.

(** operations on the lists of masks *)
Inductive lop : mlist -> mlist -> Prop :=
| lop_add : forall l m t r o, lop l (Lists_Add l m t r o)
| lop_del : forall l m, lop l (Lists_Del l m)
| lop_expire : forall l t, lop l (fst (Lists_Expire t l))
| lop_check : forall l a b, lop l (snd (Lists_CheckReason l a b)).
(** no entry is dropped after its first use *)
Definition noonce (l : mlist) : Prop := forall e, In e l -> le_once e = false.
Lemma noonce_add : forall l m t r, noonce l -> noonce (Lists_Add l m t r false).
Proof.
  intros l m t r N. unfold Lists_Add. destruct (Lists_CheckDupeMask l m).
  - induction l as [|e l IH]; cbn [upd_first]; auto. destruct (caseeq (le_mask e) m); intros x [<- |H]; cbn; auto; try (apply N; cbn; auto; fail). apply IH; auto. intros y Hy. apply N. right; auto.
  - intros x [<- |H]; auto.
Qed.
Lemma noonce_del : forall l m, noonce l -> noonce (Lists_Del l m).
Proof. induction l as [|e l IH]; intros m N; cbn [Lists_Del]; auto. destruct (caseeq (le_mask e) m); [apply IH; intros y Hy; apply N; right; auto|]. intros x [<- |H]; [apply N; cbn; auto|]. apply (IH m); auto. intros y Hy. apply N. right; auto. Qed.
Lemma noonce_check : forall l a b, noonce l -> snd (Lists_CheckReason l a b) = l.
Proof.
  induction l as [|e l IH]; intros a b N; cbn [Lists_CheckReason]; auto. destruct (le_match e a b).
  - rewrite (N e) by (left; auto). reflexivity.
  - specialize (IH a b). destruct (Lists_CheckReason l a b). cbn in *. rewrite IH; auto. intros y Hy. apply N. right; auto.
Qed.
Inductive lop_chan (c : channel) : channel -> Prop :=
| lc_bans : forall l, lop (ch_bans c) l -> (noonce (ch_bans c) -> noonce l) -> lop_chan c (set_ch_bans l c)
| lc_excepts : forall l, lop (ch_excepts c) l -> (noonce (ch_excepts c) -> noonce l) -> lop_chan c (set_ch_excepts l c)
| lc_invites : forall l, lop (ch_invites c) l -> lop_chan c (set_ch_invites l c).
(** a list was searched for a client (which may use up a one-shot entry), or an invitation was added *)
Inductive chk_chan (c : channel) : channel -> Prop :=
| ck_bans : forall a b, chk_chan c (set_ch_bans (snd (Lists_CheckReason (ch_bans c) a b)) c)
| ck_excepts : forall a b, chk_chan c (set_ch_excepts (snd (Lists_CheckReason (ch_excepts c) a b)) c).
Inductive use_chan (c : channel) : channel -> Prop :=
| us_invites : forall a b, use_chan c (set_ch_invites (snd (Lists_CheckReason (ch_invites c) a b)) c).
Inductive inv_chan (c : channel) : channel -> Prop :=
| iv_add : forall m t r o, inv_chan c (set_ch_invites (Lists_Add (ch_invites c) m t r o) c).
Lemma chk_lop : forall c c', chk_chan c c' -> lop_chan c c'.
Proof. intros c c' H. inversion H; constructor; try constructor; intro; rewrite noonce_check; auto. Qed.
Lemma use_lop : forall c c', use_chan c c' -> lop_chan c c'.
Proof. intros c c' []. apply lc_invites. constructor. Qed.
Lemma inv_lop : forall c c', inv_chan c c' -> lop_chan c c'.
Proof. intros c c' H. inversion H; subst. constructor. constructor. Qed.

(** [c'] differs from [c] only in the topic, its author and time *)
Record ctopic (c c' : channel) : Prop := mk_ctopic {
  to_name : ch_name c' = ch_name c; to_hash : ch_hash c' = ch_hash c; to_modes : ch_modes c' = ch_modes c;
  to_ctime : ch_ctime c' = ch_ctime c; to_key : ch_key c' = ch_key c; to_max : ch_maxusers c' = ch_maxusers c;
  to_bans : ch_bans c' = ch_bans c; to_excepts : ch_excepts c' = ch_excepts c; to_invites : ch_invites c' = ch_invites c;
  to_keyfile : ch_keyfile c' = ch_keyfile c;
  to_len : List.length (ch_topic c) < COMMAND_LEN -> List.length (ch_topic c') < COMMAND_LEN;
  to_who : List.length (ch_topic_who c) < CLIENT_NICK_LEN -> List.length (ch_topic_who c') < CLIENT_NICK_LEN }.

(** [c'] differs from [c] not in what identifies the connection, and not in its penalty *)
Record cconn (c c' : conn) : Prop := mk_cconn {
  cc_open : co_open c' = co_open c; cc_closing : co_closing c' = co_closing c;
  cc_client : co_client c' = co_client c; cc_ip : co_ip c' = co_ip c; cc_delay : co_delaytime c' = co_delaytime c;
  cc_rbuf : co_rbuf c' = co_rbuf c; cc_lastdata : co_lastdata c' = co_lastdata c }.
(** changes made only by the functions that read from the connection *)
Record cread (c c' : conn) : Prop := mk_cread {
  cr_open : co_open c' = co_open c; cr_closing : co_closing c' = co_closing c;
  cr_client : co_client c' = co_client c; cr_ip : co_ip c' = co_ip c; cr_delay : co_delaytime c' = co_delaytime c }.

(** what is known when the type of a client is changed *)
Record type_ok (h : handle) (t : ctype) (c : client) (s : state) : Prop := mk_type_ok {
  tg_members : userish (cl_type c) = false \/ userish t = true;
  tg_service : cl_type c = T_SERVICE -> t = T_SERVICE;
  tg_nick : cl_conn c = None \/ prereg t = false \/ cl_type c = T_SERVER \/ (cl_type c = T_UNKNOWNSERVER /\ cl_id c <> [])
            \/ (cl_id c = [] /\ nickish t = false)
            \/ (prereg (cl_type c) = true /\ (nickish t = true -> nickish (cl_type c) = true \/ cl_id c <> []));
  tg_server : t = T_SERVER -> cl_type c = T_SERVER \/ cl_type c = T_UNKNOWNSERVER;
  tg_unknown : t = T_UNKNOWNSERVER -> cl_conn c <> None }.
(** the introducer of a new remote client: the server link [l] or a server behind it *)
Definition intro_ok (intro : handle) (t : ctype) (s : state) : Prop :=
  exists l cl ci, attached l s /\ assoc l (s_heap s) = Some cl /\ cl_type cl = T_SERVER /\
    assoc intro (s_heap s) = Some ci /\ cl_type ci = T_SERVER /\
    (intro = l \/ (t <> T_SERVER /\ cl_introducer ci = Some l)).

Inductive lab :=
| L_meta | L_attr | L_away | L_intro | L_id | L_idany | L_register | L_umode | L_oper | L_type | L_type0 | L_new | L_service | L_newlocal
| L_create | L_create_any | L_create_pre | L_addmb | L_remove | L_delmb | L_delchan | L_mbmode
| L_chadd | L_chdel | L_setmodes | L_topic | L_key | L_limit | L_keyfile | L_lists | L_check | L_useinv | L_addinv
| L_class | L_whowas | L_sv | L_sig | L_wc | L_conn | L_read | L_coclose | L_codel | L_unlink | L_free
| L_destroy | L_close | L_accept | L_newserver | L_time.

Inductive pstep : lab -> state -> state -> Prop :=
| p_meta : forall s h c f, assoc h (s_heap s) = Some c -> (forall x, cmeta x (f x)) -> pstep L_meta s (set_cli h f s)
| p_attr : forall s h c f, assoc h (s_heap s) = Some c -> (forall x, cattr x (f x)) -> pstep L_attr s (set_cli h f s)
| p_away : forall s h c f, assoc h (s_heap s) = Some c -> (forall x, caway x (f x)) -> pstep L_away s (set_cli h f s)
| p_intro : forall s h c i, assoc h (s_heap s) = Some c -> cl_conn c = Some i ->
    pstep L_intro s (set_cli h (set_cl_introducer (Some h)) s)
| p_id : forall s h c id, assoc h (s_heap s) = Some c ->
    id_free h (strlcpy CLIENT_ID_LEN id) s \/ caseeq (cl_id c) id = true ->
    cl_conn c = None \/ prereg (cl_type c) = false \/ valid_nick (cf_maxnick (s_conf s)) id = true
      \/ caseeq (cl_id c) id = true ->
    pstep L_id s (set_cli h (set_id (cf_cloakusertonick (s_conf s)) id) s)
| p_idany : forall s h c id, assoc h (s_heap s) = Some c -> id_free h (strlcpy CLIENT_ID_LEN id) s -> userish (cl_type c) = false ->
    pstep L_idany s (set_cli h (set_id (cf_cloakusertonick (s_conf s)) id) s)
| p_register : forall s h c i sv req b s', assoc h (s_heap s) = Some c -> cl_conn c = Some i -> attached h s ->
    cl_type c = T_GOTPASS \/ cl_type c = T_GOTPASS_2813 -> id_free h (strlcpy CLIENT_ID_LEN (arg req 0)) s ->
    server_become h i sv req s = Ok b s' -> pstep L_register s s'
| p_umode_add : forall s h c m, assoc h (s_heap s) = Some c -> m <> "o"%char ->
    pstep L_umode s (set_cli h (set_cl_modes (fst (mode_add (cl_modes c) m))) s)
| p_umode_del : forall s h c m, assoc h (s_heap s) = Some c ->
    pstep L_umode s (set_cli h (set_cl_modes (fst (mode_del (cl_modes c) m))) s)
| p_oper : forall s h c, assoc h (s_heap s) = Some c ->
    pstep L_oper s (set_cli h (set_cl_modes (fst (mode_add (cl_modes c) "o"))) s)
| p_type : forall s h t c s', assoc h (s_heap s) = Some c -> type_ok h t c s ->
    Client_SetType h t s = Ok tt s' -> pstep L_type s s'
| p_type0 : forall s h t c s', assoc h (s_heap s) = Some c -> type_ok h t c s -> t = T_UNKNOWNSERVER \/ t = T_SERVER ->
    Client_SetType h t s = Ok tt s' -> pstep L_type0 s s'
| p_new : forall s intro top t id user host info hops token modes idented h s',
    intro_ok intro t s -> t = T_USER \/ t = T_SERVER -> id_free (s_next s) (strlcpy CLIENT_ID_LEN id) s ->
    Init_New_Client None intro top t (Some id) user host info hops token modes idented s = Ok h s' ->
    pstep L_new s s'
| p_newnick : forall s intro id user host info hops token modes idented h s1 s',
    intro_ok intro T_USER s -> id_free (s_next s) (strlcpy CLIENT_ID_LEN id) s ->
    Init_New_Client None intro None T_USER (Some id) user host info hops token modes idented s = Ok h s1 ->
    Client_SetType h T_GOTNICK s1 = Ok tt s' ->
    pstep L_new s s'
| p_service : forall s intro id user host info hops token modes idented h s1 s',
    intro_ok intro T_USER s ->
    Init_New_Client None intro None T_USER (Some id) user host info hops token modes idented s = Ok h s1 ->
    Client_SetType h T_SERVICE s1 = Ok tt s' ->
    pstep L_service s s'
| p_newlocal : forall s i host t idented h s',
    t = T_UNKNOWN \/ t = T_UNKNOWNSERVER -> Client_NewLocal i host t idented s = Ok h s' -> pstep L_newlocal s s'
| p_create : forall s name ch h s1 s',
    Channel_Search name s = Ok None s -> valid_chan name = true -> Channel_Create name s = Ok ch s1 ->
    Add_Client ch h s1 = Ok tt s' -> pstep L_create s s'
| p_create_any : forall s name ch s',
    Channel_Search name s = Ok None s -> chaninfo_create name s = Ok ch s' -> pstep L_create_any s s'
| p_create_pre : forall s name m,
    Channel_Search name s = Ok None s -> valid_chan name = true -> m = B "P" \/ m = B "mnPt" ->
    pstep L_create_pre s (set_chan (s_chnext s) (set_ch_modes m) (set_s_chnext (S (s_chnext s)) (set_s_chans ((s_chnext s, new_channel name (s_now s)) :: s_chans s) s)))
| p_addmb : forall s ch h s', find (is_mb ch h) (s_members s) = None -> Add_Client ch h s = Ok tt s' -> pstep L_addmb s s'
| p_remove : forall s ty ch h origin reason inform b s', Remove_Client ty ch h origin reason inform s = Ok b s' -> pstep L_remove s s'
| p_delmb : forall s ch h, pstep L_delmb s (set_s_members (del_mb ch h (s_members s)) s)
| p_delchan : forall s ch c, assoc ch (s_chans s) = Some c -> memb "P" (ch_modes c) = false ->
    (forall m, In m (s_members s) -> mb_chan m <> ch) -> pstep L_delchan s (set_s_chans (adel ch (s_chans s)) s)
| p_mbmode : forall s ch h mb ms m, find (is_mb ch h) (s_members s) = Some mb ->
    ms = fst (mode_add (mb_modes mb) m) \/ ms = fst (mode_del (mb_modes mb) m) ->
    pstep L_mbmode s (set_s_members (upd_mb ch h (set_mb_modes ms) (s_members s)) s)
| p_chadd : forall s ch c m, assoc ch (s_chans s) = Some c ->
    pstep L_chadd s (set_chan ch (set_ch_modes (fst (mode_add (ch_modes c) m))) s)
| p_chdel : forall s ch c m, assoc ch (s_chans s) = Some c ->
    pstep L_chdel s (set_chan ch (set_ch_modes (fst (mode_del (ch_modes c) m)))
      (if_odd (Ascii.eqb m "P" && negb (existsb (fun x => Nat.eqb (mb_chan x) ch) (s_members s))) (O_Empty ch) s))
| p_setmodes : forall s ch c m, assoc ch (s_chans s) = Some c -> ch_modes c = [] ->
    pstep L_setmodes s (set_chan ch (set_ch_modes (strlcpy CHANNEL_MODE_LEN m)) (if_odd (negb (nodupb (strlcpy CHANNEL_MODE_LEN m))) (O_Modes ch) s))
| p_topic : forall s ch c f, assoc ch (s_chans s) = Some c -> (forall x, ctopic x (f x)) -> pstep L_topic s (set_chan ch f s)
| p_key : forall s ch c k, assoc ch (s_chans s) = Some c -> pstep L_key s (set_chan ch (set_ch_key (strlcpy CLIENT_PASS_LEN k)) s)
| p_limit : forall s ch c n, assoc ch (s_chans s) = Some c ->
    pstep L_limit s (set_chan ch (set_ch_maxusers (n mod 18446744073709551616)%Z) s)
| p_keyfile : forall s ch c k, assoc ch (s_chans s) = Some c -> pstep L_keyfile s (set_chan ch (set_ch_keyfile k) s)
| p_lists : forall s ch c f, assoc ch (s_chans s) = Some c -> lop_chan c (f c) -> pstep L_lists s (set_chan ch f s)
| p_check : forall s ch c f, assoc ch (s_chans s) = Some c -> chk_chan c (f c) -> pstep L_check s (set_chan ch f s)
| p_useinv : forall s ch c f, assoc ch (s_chans s) = Some c -> use_chan c (f c) -> pstep L_useinv s (set_chan ch f s)
| p_addinv : forall s ch c f, assoc ch (s_chans s) = Some c -> inv_chan c (f c) -> pstep L_addinv s (set_chan ch f s)
| p_glines : forall s l, lop (s_glines s) l -> pstep L_class s (set_s_glines l s)
| p_klines : forall s l, lop (s_klines s) l -> pstep L_class s (set_s_klines l s)
| p_whowas : forall s h s', Client_RegisterWhowas h s = Ok tt s' -> pstep L_whowas s s'
| p_sv : forall s l, List.length l = List.length (s_servers s) -> pstep L_sv s (set_s_servers l s)
| p_sigquit : forall s, pstep L_sig s (set_s_sigquit true s)
| p_sigrehash : forall s, pstep L_sig s (set_s_sigrehash true s)
| p_sigrestart : forall s, pstep L_sig s (set_s_sigrestart true s)
| p_wc : forall s, pstep L_wc s (set_s_wcounter 0 s)
| p_conn : forall s i f, (forall c, cconn c (f c)) -> pstep L_conn s (set_con i f s)
| p_read : forall s i f, (forall c, cread c (f c)) -> pstep L_read s (set_con i f s)
| p_closing : forall s i, pstep L_coclose s (set_con i (set_co_closing true) s)
| p_closed : forall s i, pstep L_coclose s (set_con i (set_co_open false) s)
| p_codel : forall s i, pstep L_codel s (set_s_numconn (s_numconn s - 1) (set_s_conns (adel i (s_conns s)) s))
| p_unlink : forall s h, pstep L_unlink s (set_s_clients (unlink h (s_clients s)) s)
| p_free : forall s h c s', assoc h (s_heap s) = Some c -> ~ In h (s_clients s) -> Free_Client h s = Ok tt s' -> pstep L_free s s'
| p_destroy : forall s h c log fwd sq s', assoc h (s_heap s) = Some c ->
    cl_conn c = None \/ (exists x, Client_NextHop h s = Ok x s /\ x <> h) ->
    Client_Destroy h log fwd sq s = Ok tt s' -> pstep L_destroy s s'
| p_close : forall s i log fwd inform s', Conn_Close i log fwd inform s = Ok tt s' -> pstep L_close s s'
| p_accept : forall s i ip v6 s', assoc i (s_conns s) = None -> New_Connection i ip v6 s = Ok tt s' -> pstep L_accept s s'
| p_newserver : forall s n i ip s', assoc i (s_conns s) = None -> New_Server n i ip s = Ok tt s' -> pstep L_newserver s s'
| p_time : forall s t r, pstep L_time s (set_s_rnd r (set_s_now t s)).

Class PS (l : lab) (X : state -> state -> Prop) : Prop := ps : forall s s', pstep l s s' -> X s s'.
#[export] Instance check_of_lists : forall X, PS L_lists X -> PS L_check X | 10.
Proof. intros X P s s' H. inversion H; subst. apply P. econstructor; eauto. apply chk_lop. auto. Qed.
#[export] Instance useinv_of_lists : forall X, PS L_lists X -> PS L_useinv X | 10.
Proof. intros X P s s' H. inversion H; subst. apply P. econstructor; eauto. apply use_lop. auto. Qed.
#[export] Instance attr_of_meta : forall X, PS L_meta X -> PS L_attr X | 10.
Proof. intros X P s s' H. inversion H; subst. apply P. econstructor; eauto. intro x. apply at_meta. auto. Qed.
#[export] Instance away_of_meta : forall X, PS L_meta X -> PS L_away X | 10.
Proof. intros X P s s' H. inversion H; subst. apply P. econstructor; eauto. intro x. apply aw_meta. auto. Qed.
Lemma type0_type : forall s s', pstep L_type0 s s' -> pstep L_type s s'.
Proof. intros s s' H. inversion H; subst. econstructor; eauto. Qed.
#[export] Instance type0_of_type : forall X, PS L_type X -> PS L_type0 X | 10.
Proof. intros X P s s' H. apply P, type0_type, H. Qed.
#[export] Instance addinv_of_lists : forall X, PS L_lists X -> PS L_addinv X | 10.
Proof. intros X P s s' H. inversion H; subst. apply P. econstructor; eauto. apply inv_lop. auto. Qed.

(** [relp P X m]: like [rel], for runs that start in states with [P] *)
Definition relp (P : state -> Prop) (X : state -> state -> Prop) {A} (m : M A) : Prop :=
  forall s a s', P s -> m s = Ok a s' -> X s s'.
Lemma rel_relp : forall P X A (m : M A), rel X m -> relp P X m.
Proof. unfold rel, relp. eauto. Qed.
Lemma relp_bind : forall (X : state -> state -> Prop) {PO : PreOrder X} A B (P : state -> Prop) (Q : A -> state -> Prop) (m : M A) (k : A -> M B),
  relp P X m -> (forall s a s', P s -> m s = Ok a s' -> Q a s') -> (forall a, relp (Q a) X (k a)) -> relp P X (bind m k).
Proof.
  intros X PO A B P Q m k Hm Hq Hk s b s2 Hp H. apply bind_ok in H. destruct H as (a & s1 & H1 & H2).
  transitivity s1; [eapply Hm | eapply Hk]; eauto.
Qed.

(** what the write layer leaves alone *)
Record wsame (s s' : state) : Prop := mk_wsame {
  w_conf : s_conf s' = s_conf s; w_now : s_now s' = s_now s; w_rnd : s_rnd s' = s_rnd s;
  w_clients : s_clients s' = s_clients s; w_next : s_next s' = s_next s;
  w_chans : s_chans s' = s_chans s; w_chnext : s_chnext s' = s_chnext s; w_members : s_members s' = s_members s;
  w_numconn : s_numconn s' = s_numconn s; w_glines : s_glines s' = s_glines s; w_klines : s_klines s' = s_klines s;
  w_servers : s_servers s' = s_servers s; w_whowas : s_whowas s' = s_whowas s; w_odd : s_odd s' = s_odd s;
  w_quit : s_sigquit s' = s_sigquit s; w_keys : map fst (s_heap s') = map fst (s_heap s);
  w_ckeys : map fst (s_conns s') = map fst (s_conns s) }.
#[export] Instance wsame_po : PreOrder wsame.
Proof.
  split; [intro s; split; reflexivity|].
  intros a b c [] []. split; etransitivity; eauto.
Qed.
Lemma aupd_keys : forall A k (f : A -> A) l, map fst (aupd k f l) = map fst l.
Proof. intros. unfold aupd. rewrite map_map. apply map_ext. intros [x y]. simpl. destruct (Nat.eqb k x); reflexivity. Qed.
#[export] Instance wsame_wr : WrSub wsame.
Proof.
  intros s s' H. destruct H; split; try reflexivity; unfold set_con, set_cli; cbn [s_heap s_conns set_s_heap set_s_conns]; try apply aupd_keys.
  rewrite map_map. reflexivity.
Qed.
Lemma wr_same : forall s s', wr s s' -> wsame s s'.
Proof. intros. apply wr_incl; auto; exact _. Qed.

(** ---- clients and connections through the write layer ---- *)
Definition orel {A} (R : A -> A -> Prop) (a b : option A) : Prop :=
  match a, b with Some x, Some y => R x y | None, None => True | _, _ => False end.
Lemma orel_refl : forall A (R : A -> A -> Prop), Reflexive R -> Reflexive (orel R).
Proof. intros A R H [a|]; simpl; auto. Qed.
Lemma orel_trans : forall A (R : A -> A -> Prop), Transitive R -> Transitive (orel R).
Proof. intros A R H [a|] [b|] [c|]; simpl; auto; try contradiction. apply H. Qed.

Lemma assoc_aupd : forall A k (f : A -> A) i l, assoc i (aupd k f l) = (if Nat.eqb k i then option_map f (assoc i l) else assoc i l).
Proof.
  induction l as [|[j x] l IH]; simpl.
  - destruct (Nat.eqb k i); reflexivity.
  - destruct (Nat.eqb k j) eqn:E1; simpl; destruct (Nat.eqb i j) eqn:E2; simpl; auto.
    + apply Nat.eqb_eq in E1, E2. subst. rewrite Nat.eqb_refl. reflexivity.
    + apply Nat.eqb_eq in E2. subst. rewrite E1. reflexivity.
Qed.
Lemma assoc_map : forall A (f : A -> A) i l, assoc i (map (fun p => (fst p, f (snd p))) l) = option_map f (assoc i l).
Proof. induction l as [|[j x] l IH]; simpl; auto. destruct (Nat.eqb i j); auto. Qed.

(** equal up to the cloaked host name *)
Definition cl_same (c c' : client) : Prop := exists x, c' = set_cl_cloaked x c.
Lemma cl_same_refl : Reflexive cl_same.
Proof. intro c. exists (cl_cloaked c). destruct c; reflexivity. Qed.
Lemma cl_same_trans : Transitive cl_same.
Proof. intros a b c [x ->] [y ->]. exists y. reflexivity. Qed.
Definition co_same (c c' : conn) : Prop :=
  co_open c' = co_open c /\ co_closing c' = co_closing c /\ co_client c' = co_client c /\ co_ip c' = co_ip c /\
  co_pwd c' = co_pwd c /\ co_rbuf c' = co_rbuf c /\ co_connecting c' = co_connecting c /\ co_rfc1459 c' = co_rfc1459 c /\
  co_auth_ping c' = co_auth_ping c /\ co_lastdata c' = co_lastdata c /\ co_lastping c' = co_lastping c.
Lemma co_same_refl : Reflexive co_same.
Proof. intro c. repeat split. Qed.
Lemma co_same_trans : Transitive co_same.
Proof. unfold co_same. intros a b c H1 H2. repeat match goal with H : _ /\ _ |- _ => destruct H end. repeat split; congruence. Qed.

Record wtabs (s s' : state) : Prop := mk_wtabs {
  wt_cli : forall h, orel cl_same (assoc h (s_heap s)) (assoc h (s_heap s'));
  wt_con : forall i, orel co_same (assoc i (s_conns s)) (assoc i (s_conns s')) }.
#[export] Instance wtabs_po : PreOrder wtabs.
Proof.
  split.
  - intro s. split; intro; apply orel_refl; [apply cl_same_refl | apply co_same_refl].
  - intros a b c [H1 H2] [H3 H4]. split; intro; eapply orel_trans; eauto; [apply cl_same_trans | apply co_same_trans].
Qed.
#[export] Instance wtabs_wr : WrSub wtabs.
Proof.
  intros s s' H. destruct H; split; intro k; unfold set_con, set_cli; cbn [s_heap s_conns set_s_heap set_s_conns set_s_out set_s_wcounter];
    try (apply orel_refl; first [apply cl_same_refl | apply co_same_refl]).
  - rewrite assoc_aupd. destruct (Nat.eqb i k); [|apply orel_refl; apply co_same_refl].
    destruct (assoc k (s_conns s)); simpl; auto. destruct (H c). repeat split; auto.
  - rewrite assoc_map. destruct (assoc k (s_conns s)); simpl; auto. repeat split.
  - rewrite assoc_aupd. destruct (Nat.eqb i k); [|apply orel_refl; apply co_same_refl].
    destruct (assoc k (s_conns s)); simpl; auto. repeat split.
  - rewrite assoc_aupd. destruct (Nat.eqb h k); [|apply orel_refl; apply cl_same_refl].
    destruct (assoc k (s_heap s)); simpl; auto. exists (Some x). reflexivity.
Qed.
Lemma wr_tabs : forall s s', wr s s' -> wtabs s s'.
Proof. intros. apply wr_incl; auto; exact _. Qed.
Lemma wr_cli : forall s s' h c, wr s s' -> assoc h (s_heap s) = Some c -> exists x, assoc h (s_heap s') = Some (set_cl_cloaked x c).
Proof.
  intros s s' h c W H. destruct (wr_tabs _ _ W) as [A _]. specialize (A h). rewrite H in A.
  destruct (assoc h (s_heap s')); [|contradiction]. destruct A as [x ->]. exists x. reflexivity.
Qed.
Lemma wr_cli_back : forall s s' h c, wr s s' -> assoc h (s_heap s') = Some c -> exists c0 x, assoc h (s_heap s) = Some c0 /\ c = set_cl_cloaked x c0.
Proof.
  intros s s' h c W H. destruct (wr_tabs _ _ W) as [A _]. specialize (A h). rewrite H in A.
  destruct (assoc h (s_heap s)); [|contradiction]. destruct A as [x ->]. eauto.
Qed.
Lemma wr_attached : forall s s' h, wr s s' -> (attached h s <-> attached h s').
Proof.
  intros s s' h W. destruct (wr_tabs _ _ W) as [_ A]. split; intros (i & c & H & Hc); specialize (A i); rewrite H in A.
  - destruct (assoc i (s_conns s')) as [c'|] eqn:E; [|contradiction]. exists i, c'. split; auto. destruct A as (_ & _ & A & _). congruence.
  - destruct (assoc i (s_conns s)) as [c'|] eqn:E; [|contradiction]. exists i, c'. split; auto. destruct A as (_ & _ & A & _). congruence.
Qed.
Lemma NextHop_ok : forall n h s x s', NextHop n h s = Ok x s' -> s' = s.
Proof.
  induction n; intros h s x s' H; cbn [NextHop] in H; minv H.
  destruct (cl_introducer a); [destruct (heq h0 h || heq h0 This_Server)|]; minv H; eauto.
Qed.
Lemma wr_NextHop : forall n h s s' x, wr s s' -> NextHop n h s = Ok x s -> NextHop n h s' = Ok x s'.
Proof.
  induction n; intros h s s' x W H; cbn [NextHop] in *; [minv H|].
  apply bind_ok in H. destruct H as (c & s1 & H1 & H). apply cli_ok in H1. destruct H1 as [H1 ->].
  destruct (wr_cli _ _ _ _ W H1) as [y Hy]. unfold bind, cli. rewrite Hy. cbn [cl_introducer set_cl_cloaked].
  destruct (cl_introducer c); [destruct (heq h0 h || heq h0 This_Server)|].
  - minv H. reflexivity.
  - eauto.
  - minv H. reflexivity.
Qed.
Lemma wr_Client_NextHop : forall h s s' x, wr s s' -> Client_NextHop h s = Ok x s -> Client_NextHop h s' = Ok x s'.
Proof.
  intros h s s' x W H. unfold Client_NextHop in *. apply bind_ok in H. destruct H as (n & s1 & H1 & H).
  apply gets_ok in H1. destruct H1 as [-> ->]. unfold bind, gets.
  replace (List.length (s_heap s')) with (List.length (s_heap s)). { eapply wr_NextHop; eauto. }
  rewrite <- (map_length fst (s_heap s)), <- (map_length fst (s_heap s')). rewrite (w_keys _ _ (wr_same _ _ W)). reflexivity.
Qed.
Lemma mfind_ok : forall A (f : A -> M bool) s l, (forall a b s', f a s = Ok b s' -> s' = s) ->
  forall o s', mfind f l s = Ok o s' ->
  s' = s /\ match o with Some a => In a l /\ f a s = Ok true s | None => forall a, In a l -> f a s = Ok false s end.
Proof.
  induction l as [|a l IH]; intros Hf o s' H; cbn [mfind] in H. { minv H. split; auto. intros a []. }
  apply bind_ok in H. destruct H as (b & s1 & H1 & H). assert (s1 = s) by (eapply Hf; eauto). subst.
  destruct b. { minv H. split; auto. split; auto. left; auto. }
  destruct (IH Hf _ _ H) as [-> H2]. split; auto. destruct o.
  - destruct H2. split; auto. right; auto.
  - intros x [->|Hx]; auto.
Qed.
Lemma mfind_run : forall A (f : A -> M bool) s s' l o, (forall a b s', f a s = Ok b s' -> s' = s) ->
  (forall a b, f a s = Ok b s -> f a s' = Ok b s') -> mfind f l s = Ok o s -> mfind f l s' = Ok o s'.
Proof.
  intros A f s s' l o Hf Hg. induction l as [|a l IH]; intros H; cbn [mfind] in *. { minv H. reflexivity. }
  apply bind_ok in H. destruct H as (b & s1 & H1 & H). assert (s1 = s) by (eapply Hf; eauto). subst.
  unfold bind. rewrite (Hg _ _ H1). destruct b; [minv H; reflexivity|auto].
Qed.
(** ---- looking up clients ---- *)
Definition has_id (id : bytes) (c : client) : bool := N.eqb (cl_hash c) (Hash id) && caseeq (cl_id c) id.
Lemma Client_Search_ok : forall nick s o s', Client_Search nick s = Ok o s' ->
  s' = s /\ match o with
            | Some h => In h (s_clients s) /\ exists c, assoc h (s_heap s) = Some c /\ has_id (search_id nick) c = true
            | None => forall h, In h (s_clients s) -> exists c, assoc h (s_heap s) = Some c /\ has_id (search_id nick) c = false
            end.
Proof.
  intros nick s o s' H. unfold Client_Search in H. apply bind_ok in H. destruct H as (l & s1 & H1 & H).
  unfold Clients in H1. apply gets_ok in H1. destruct H1 as [-> ->].
  apply mfind_ok in H; [|intros a b t Ht; minv Ht; reflexivity].
  destruct H as [-> H]. split; auto. destruct o.
  - destruct H as [H1 H2]. split; auto. apply bind_ok in H2. destruct H2 as (c & s1 & H2 & H3).
    apply cli_ok in H2. destruct H2 as [H2 ->]. apply ret_ok in H3. destruct H3 as [H3 _]. exists c. split; auto.
  - intros h Hh. specialize (H h Hh). apply bind_ok in H. destruct H as (c & s1 & H2 & H3).
    apply cli_ok in H2. destruct H2 as [H2 ->]. apply ret_ok in H3. destruct H3 as [H3 _]. exists c. split; auto.
Qed.
Lemma wr_Client_Search : forall nick s s' o, wr s s' -> Client_Search nick s = Ok o s -> Client_Search nick s' = Ok o s'.
Proof.
  intros nick s s' o W H. unfold Client_Search in *. apply bind_ok in H. destruct H as (l & s1 & H1 & H).
  unfold Clients in H1. apply gets_ok in H1. destruct H1 as [-> ->]. unfold bind at 1, Clients, gets.
  rewrite (w_clients _ _ (wr_same _ _ W)).
  eapply mfind_run; [| |exact H].
  - intros a b t Ht. minv Ht. reflexivity.
  - intros a b Hb. apply bind_ok in Hb. destruct Hb as (c & s1 & H1 & Hb). apply cli_ok in H1. destruct H1 as [H1 ->].
    destruct (wr_cli _ _ _ _ W H1) as [y Hy]. unfold bind, cli. rewrite Hy. apply ret_ok in Hb. destruct Hb as [-> _]. reflexivity.
Qed.

(** ---- conditions the write layer keeps ---- *)
Definition wstable (P : state -> Prop) : Prop := forall s s', wr s s' -> P s -> P s'.
Lemma relp_bind_wr : forall (X : state -> state -> Prop) {PO : PreOrder X} {WS : WrSub X} A B (P : state -> Prop) (m : M A) (k : A -> M B),
  wstable P -> rel wr m -> (forall a, relp P X (k a)) -> relp P X (bind m k).
Proof.
  intros X PO WS A B P m k Hs Hm Hk. eapply relp_bind with (Q := fun _ => P); auto.
  - intros s a s' _ H. apply wr_incl; auto. eapply Hm; eauto.
  - intros s a s' Hp H. apply (Hs s s'); [apply (Hm s a s' H)|exact Hp].
Qed.
Lemma relp_bind_rel : forall (X : state -> state -> Prop) {PO : PreOrder X} A B (P : state -> Prop) (m : M A) (k : A -> M B),
  relp P X m -> (forall a, rel X (k a)) -> relp P X (bind m k).
Proof. intros. eapply relp_bind with (Q := fun _ _ => True); auto. intros. apply rel_relp; auto. Qed.
Lemma relp_rel : forall X A (m : M A), relp (fun _ => True) X m -> rel X m.
Proof. intros X A m H s a s' Hr. eapply H; eauto. Qed.
Lemma relp_weaken : forall (P Q : state -> Prop) X A (m : M A), (forall s, P s -> Q s) -> relp Q X m -> relp P X m.
Proof. unfold relp. eauto. Qed.
(** reading a client and going on knowing what has been read *)
Lemma relp_cli : forall X B (P : state -> Prop) h (k : client -> M B),
  (forall c, relp (fun s => P s /\ assoc h (s_heap s) = Some c) X (k c)) -> relp P X (bind (cli h) k).
Proof.
  intros X B P h k H s b s' Hp Hr. apply bind_ok in Hr. destruct Hr as (c & s1 & H1 & H2). apply cli_ok in H1. destruct H1; subst.
  eapply H; eauto.
Qed.
Lemma relp_search : forall X B (P : state -> Prop) nick (k : option handle -> M B),
  (forall o, relp (fun s => P s /\ Client_Search nick s = Ok o s) X (k o)) -> relp P X (bind (Client_Search nick) k).
Proof.
  intros X B P nick k H s b s' Hp Hr. apply bind_ok in Hr. destruct Hr as (o & s1 & H1 & H2).
  pose proof (Client_Search_ok _ _ _ _ H1) as [-> _]. eapply H; eauto.
Qed.
Lemma relp_Client_Conn : forall X B (P : state -> Prop) h (k : option connid -> M B),
  (forall c, relp (fun s => P s /\ assoc h (s_heap s) = Some c) X (k (cl_conn c))) -> relp P X (bind (Client_Conn h) k).
Proof.
  intros X B P h k H s b s' Hp Hr. apply bind_ok in Hr. destruct Hr as (o & s1 & H1 & H2). apply Client_Conn_ok in H1.
  destruct H1 as (-> & c & Hc & ->). eapply H; eauto.
Qed.
Lemma relp_Client_Type : forall X B (P : state -> Prop) h (k : ctype -> M B),
  (forall c, relp (fun s => P s /\ assoc h (s_heap s) = Some c) X (k (cl_type c))) -> relp P X (bind (Client_Type h) k).
Proof.
  intros X B P h k H s b s' Hp Hr. apply bind_ok in Hr. destruct Hr as (o & s1 & H1 & H2). apply Client_Type_ok in H1.
  destruct H1 as (-> & c & Hc & ->). eapply H; eauto.
Qed.
Lemma relp_is_type : forall X B (P : state -> Prop) h t (k : bool -> M B),
  (forall c, relp (fun s => P s /\ assoc h (s_heap s) = Some c) X (k (ctype_eqb (cl_type c) t))) -> relp P X (bind (is_type h t) k).
Proof.
  intros X B P h t k H s b s' Hp Hr. apply bind_ok in Hr. destruct Hr as (o & s1 & H1 & H2). apply is_type_ok in H1.
  destruct H1 as (-> & c & Hc & ->). eapply H; eauto.
Qed.
(** a client exists and what is listed in [F] holds of it, up to its cloaked host name *)
Definition cfact (h : handle) (F : client -> Prop) (s : state) : Prop := exists c, assoc h (s_heap s) = Some c /\ F c.
Lemma cfact_wstable : forall h (F : client -> Prop), (forall c x, F c -> F (set_cl_cloaked x c)) -> wstable (cfact h F).
Proof. intros h F HF s s' W (c & Hc & Hf). destruct (wr_cli _ _ _ _ W Hc) as [x Hx]. exists (set_cl_cloaked x c). auto. Qed.
Lemma wstable_and : forall P Q, wstable P -> wstable Q -> wstable (fun s => P s /\ Q s).
Proof. intros P Q HP HQ s s' W [H1 H2]. split; [eapply HP|eapply HQ]; eauto. Qed.
Lemma wstable_attached : forall h, wstable (attached h).
Proof. intros h s s' W H. apply (wr_attached s s' h W). exact H. Qed.
Lemma wstable_True : wstable (fun _ => True).
Proof. intros s s' _ _. exact I. Qed.
Arguments relp_bind_wr {X PO WS A B P m k}.
Arguments relp_bind_rel {X PO A B P m k}.
Arguments relp_bind {X PO A B P Q m k}.
