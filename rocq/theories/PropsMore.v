(** Property theorems about invitations (C32). *)
From Coq Require Import List Ascii String ZArith NArith Bool Lia Arith.
From Verif Require Import Bytes Match MatchSpec MatchProofs Lists ParseReq State Monad Core Write Info Chan Mode Msg Login Oper Server Dispatch Conn WF RelCmd Live Spec SpecMore Observ HandLine Frames HandGain HandUser HandChan HandJoin HandInvite HandServer Output Sessions PropsUser PropsLogin PropsSend.
Import ListNotations.

(** ** C32 *)
(** A JOIN of one channel by a user who is not on it and has room for it uses the invitations exactly once:
    the first entry that means him is dropped if it is one-shot, nothing else changes; and afterwards the
    same masks mean him as before. *)
Theorem C32_one_join : forall s i h c text args name b s' ch k, live s -> undisturbed s -> client_of s i h c -> cl_type c = T_USER -> ~ In "o"%char (cl_modes c) ->
  orders s text "JOIN" args -> (args = [name] \/ exists key, args = [name; key]) -> ~ In ","%char name -> name <> [] -> args <> [B "0"] -> the_channel s name ch k -> ~ is_on s h ch -> room_to_join s h ->
  Parse_Request i text s = Ok b s' -> exists k' c', exists_chan s' ch k' /\ lookup h (s_heap s') = Some c' /\ used_by s c (ch_invites k) (ch_invites k') /\ (forall e, means s' c' e <-> means s c e).
Proof. exact join_uses. Qed.
Print Assumptions C32_one_join.
(** so the only invitation of a user, if it is one-shot, is gone after his next JOIN, whether it succeeds or not *)
Theorem C32_good_for_one_join : forall s i h c text args name b s' ch k l1 e l2, live s -> undisturbed s -> client_of s i h c -> cl_type c = T_USER -> ~ In "o"%char (cl_modes c) ->
  orders s text "JOIN" args -> (args = [name] \/ exists key, args = [name; key]) -> ~ In ","%char name -> name <> [] -> args <> [B "0"] -> the_channel s name ch k -> ~ is_on s h ch -> room_to_join s h ->
  ch_invites k = l1 ++ e :: l2 -> (forall x, In x (l1 ++ l2) -> ~ means s c x) -> means s c e -> le_once e = true ->
  Parse_Request i text s = Ok b s' -> exists k' c', exists_chan s' ch k' /\ lookup h (s_heap s') = Some c' /\ ch_invites k' = l1 ++ l2 /\ forall x, In x (ch_invites k') -> ~ means s' c' x.
Proof.
  intros s i h c text args name b s' ch k l1 e l2 H1 H2 H3 H4 H5 H6 H7 H8 H9 H10 H11 H12 H13 E N M O H. destruct (join_uses _ _ _ _ _ _ _ _ _ _ _ H1 H2 H3 H4 H5 H6 H7 H8 H9 H10 H11 H12 H13 H) as (k' & c' & K1 & K2 & K3 & K4).
  pose proof (used_up _ _ _ _ _ _ _ K3 E N M O) as Q. exists k', c'. split; auto. split; auto. split; auto. intros x I. rewrite Q in I. rewrite K4. auto.
Qed.
Print Assumptions C32_good_for_one_join.
(** INVITE: if the user may invite, and the other one needs it (the channel is invite-only, or he is banned), a
    one-shot entry for his mask is written; otherwise the invitations stay as they are *)
Theorem C32_invite : forall s i h c text t name b s' j g d ch k, live s -> undisturbed s -> client_of s i h c -> cl_type c = T_USER -> client_of s j g d -> cl_type d = T_USER ->
  orders s text "INVITE" [t; name] -> the_client s t g d -> the_channel s name ch k -> Parse_Request i text s = Ok b s' ->
  exists k', exists_chan s' ch k' /\
   ((may_invite s h g ch k /\ needs_invite s d k -> invited (shown_mask s d) (ch_invites k) (ch_invites k')) /\
    (~ (may_invite s h g ch k /\ needs_invite s d k) -> ch_invites k' = ch_invites k)).
Proof. exact invite_line. Qed.
Print Assumptions C32_invite.
(** Permanent entries (+I) stay: whatever line a client sends, they are still there, unless it is a MODE command
    (or, for a client that is not registered yet, one of the commands of the login). *)
Theorem C32_permanent_stay : forall s s' i h c text b, live s -> client_of s i h c -> Parse_Request i text s = Ok b s' ->
  forall ch k k' e, exists_chan s ch k -> exists_chan s' ch k' -> In e (ch_invites k) -> le_once e = false ->
  (exists e', In e' (ch_invites k') /\ kind e' = kind e) \/ (a_line_of text ("MODE"%string :: LOGIN) /\ (cl_type c = T_USER -> a_line_of text ["MODE"]%string)).
Proof. exact perm_line. Qed.
Print Assumptions C32_permanent_stay.
(** No entry at all is lost by other commands than MODE and JOIN. *)
Theorem C32_entries_stay : forall s s' i h c text b, live s -> client_of s i h c -> Parse_Request i text s = Ok b s' ->
  forall ch k k' e, exists_chan s ch k -> exists_chan s' ch k' -> In e (ch_invites k) ->
  (exists e', In e' (ch_invites k') /\ kind e' = kind e) \/ (a_line_of text ("MODE"%string :: "JOIN"%string :: LOGIN) /\ (cl_type c = T_USER -> a_line_of text ["MODE"; "JOIN"]%string)).
Proof. exact stay_line. Qed.
Print Assumptions C32_entries_stay.
(** No entry is made by other commands than MODE and INVITE. *)
Theorem C32_no_new_entries : forall s s' i h c text b, live s -> client_of s i h c -> Parse_Request i text s = Ok b s' ->
  forall ch k k' e, exists_chan s ch k -> exists_chan s' ch k' -> In e (ch_invites k') ->
  (exists e', In e' (ch_invites k) /\ kind e' = kind e) \/ (a_line_of text ("MODE"%string :: "INVITE"%string :: LOGIN) /\ (cl_type c = T_USER -> a_line_of text ["MODE"; "INVITE"]%string)).
Proof. exact news_line. Qed.
Print Assumptions C32_no_new_entries.
(** Timers, lost connections and the like do not touch the invitations. *)
Theorem C32_no_chore : forall s s', live s -> chore s s' -> forall ch k k', exists_chan s ch k -> exists_chan s' ch k' -> ch_invites k' = ch_invites k.
Proof. exact chore_inv. Qed.
Print Assumptions C32_no_chore.

(** ** examples *)
(** alice has made the invite-only channel #inv, with a permanent entry; in [st_inv] she has invited bob, too *)
Notation st_inv0 := (final conf0 [peer] (two_users ++ link ++ [E_Time 2020 7; E_Data 5 (crlf "JOIN #inv"); E_Time 2030 7; E_Data 5 (crlf "MODE #inv +iI friend!*@*"); E_Time 2040 7])).
Notation st_inv := (final conf0 [peer] (two_users ++ link ++ [E_Time 2020 7; E_Data 5 (crlf "JOIN #inv"); E_Time 2030 7; E_Data 5 (crlf "MODE #inv +iI friend!*@*"); E_Time 2040 7; E_Data 5 (crlf "INVITE bob #inv"); E_Time 2050 7])).
Lemma st_inv0_reachable : reachable st_inv0.
Proof. apply reach_final; [exact conf0_ok|vm_compute; reflexivity]. Qed.
Lemma st_inv_reachable : reachable st_inv.
Proof. apply reach_final; [exact conf0_ok|vm_compute; reflexivity]. Qed.
Definition means_b (s : state) (c : client) (e : lelem) : bool := MatchCaseInsensitive (le_mask e) (full_mask c) || MatchCaseInsensitive (le_mask e) (shown_mask s c).
Lemma means_b_ok : forall s c e, means_b s c e = true <-> means s c e.
Proof. intros s c e. unfold means_b, means. apply orb_true_iff. Qed.
Definition has_priv_b (x : ascii) (h : handle) (ch : chandle) (s : state) : bool := existsb (fun m => Nat.eqb (mb_client m) h && Nat.eqb (mb_chan m) ch && memb x (mb_modes m)) (s_members s).
Lemma has_priv_ok : forall x h ch s, has_priv_b x h ch s = true -> has_priv s h ch x.
Proof. intros x h ch s H. apply existsb_exists in H. destruct H as (m & I & H). rewrite !andb_true_iff in H. destruct H as [[H1 H2] H3]. apply Nat.eqb_eq in H1, H2. apply memb_In in H3. exists m. auto. Qed.
Lemma not_on_b : forall h ch s, on_b h ch s = false -> ~ is_on s h ch.
Proof. intros h ch s H I. apply on_b_ok in I. congruence. Qed.
Example C32_nonvacuous : exists h c ch k e l2 s', live st_inv /\ undisturbed st_inv /\ client_of st_inv 6 h c /\ cl_type c = T_USER /\ ~ In "o"%char (cl_modes c) /\ orders st_inv (B "JOIN #inv") "JOIN" [B "#inv"] /\
  the_channel st_inv (B "#inv") ch k /\ ~ is_on st_inv h ch /\ room_to_join st_inv h /\ ch_invites k = [] ++ e :: l2 /\ List.length l2 = 1 /\ (forall x, In x ([] ++ l2) -> ~ means st_inv c x) /\ means st_inv c e /\ le_once e = true /\ In "i"%char (ch_modes k) /\
  Parse_Request 6 (B "JOIN #inv") st_inv = Ok CONNECTED s' /\ is_on s' h ch.
Proof.
  destruct (serves_ok st_inv 6 (named "bob" st_inv) (fun c => type_b T_USER c && negb (memb "o" (cl_modes c)) && chas st_inv (cnamed "#inv" st_inv) (fun k => the_channel_b st_inv (B "#inv") (cnamed "#inv" st_inv) k && memb "i" (ch_modes k) &&
     match ch_invites k with [e; x] => means_b st_inv c e && negb (means_b st_inv c x) && le_once e | _ => false end))) as (c & C & T); [vm_compute; reflexivity|]. rewrite !andb_true_iff, negb_true_iff in T. destruct T as [[T X] KK]. apply type_b_ok in T.
  apply chas_ok in KK. destruct KK as (k & K & Q). rewrite !andb_true_iff in Q. destruct Q as [[Q1 Q2] Q3]. destruct (ch_invites k) as [|e [|x [|]]] eqn:EI; try discriminate Q3. rewrite !andb_true_iff, negb_true_iff in Q3. destruct Q3 as [[Q3 Q4] Q5].
  destruct (doing_ok _ (Parse_Request 6 (B "JOIN #inv")) st_inv (fun b s => b && on_b (named "bob" st_inv) (cnamed "#inv" st_inv) s)) as (b & s' & H & R); [vm_compute; reflexivity|]. rewrite !andb_true_iff in R. destruct R as [R1 R2].
  exists (named "bob" st_inv), c, (cnamed "#inv" st_inv), k, e, [x], s'. split; [apply V_reach; exact st_inv_reachable|]. split; [apply calm_ok; vm_compute; reflexivity|]. split; [exact C|]. split; [exact T|]. split; [apply not_In_b; exact X|]. split; [apply orders_b; vm_compute; reflexivity|].
  split; [apply the_channel_ok; auto|]. split; [apply not_on_b; vm_compute; reflexivity|]. split; [right; vm_compute; reflexivity|]. split; [exact EI|]. split; [reflexivity|]. split; [intros y [<- |[]] M; apply means_b_ok in M; congruence|]. split; [apply means_b_ok; exact Q3|]. split; [exact Q5|]. split; [apply memb_In; exact Q2|].
  split; [rewrite H, R1; reflexivity|]. apply on_b_ok. exact R2.
Qed.
Example C32_invite_nonvacuous : exists h c g d ch k s', live st_inv0 /\ undisturbed st_inv0 /\ client_of st_inv0 5 h c /\ cl_type c = T_USER /\ client_of st_inv0 6 g d /\ cl_type d = T_USER /\ orders st_inv0 (B "INVITE bob #inv") "INVITE" [B "bob"; B "#inv"] /\
  the_client st_inv0 (B "bob") g d /\ the_channel st_inv0 (B "#inv") ch k /\ may_invite st_inv0 h g ch k /\ needs_invite st_inv0 d k /\ List.length (ch_invites k) = 1 /\ Parse_Request 5 (B "INVITE bob #inv") st_inv0 = Ok CONNECTED s'.
Proof.
  destruct (serves_ok st_inv0 5 (named "alice" st_inv0) (type_b T_USER)) as (c & C & T); [vm_compute; reflexivity|]. apply type_b_ok in T.
  destruct (serves_ok st_inv0 6 (named "bob" st_inv0) (type_b T_USER)) as (d & D & TD); [vm_compute; reflexivity|]. apply type_b_ok in TD.
  destruct (chas_ok st_inv0 (cnamed "#inv" st_inv0) (fun k => the_channel_b st_inv0 (B "#inv") (cnamed "#inv" st_inv0) k && memb "i" (ch_modes k) && negb (memb "V" (ch_modes k)) && (List.length (ch_invites k) =? 1))) as (k & K & P); [vm_compute; reflexivity|]. rewrite !andb_true_iff, negb_true_iff in P. destruct P as [[[P1 P2] P3] P4].
  destruct (doing_ok _ (Parse_Request 5 (B "INVITE bob #inv")) st_inv0 (fun b s => b)) as (b & s' & H & R); [vm_compute; reflexivity|].
  destruct (has_ok st_inv0 (named "bob" st_inv0) (fun _ => true)) as (d' & D1 & _); [vm_compute; reflexivity|]. assert (d' = d) as -> by (destruct D1 as [_ D1], D as [_ D]; congruence).
  exists (named "alice" st_inv0), c, (named "bob" st_inv0), d, (cnamed "#inv" st_inv0), k, s'. split; [apply V_reach; exact st_inv0_reachable|]. split; [apply calm_ok; vm_compute; reflexivity|]. split; [exact C|]. split; [exact T|]. split; [exact D|]. split; [exact TD|]. split; [apply orders_b; vm_compute; reflexivity|].
  split; [apply the_client_ok; [exact D1|vm_compute; reflexivity]|]. split; [apply the_channel_ok; auto|].
  split. { split; [apply on_b_ok; vm_compute; reflexivity|]. split; [apply not_In_b; exact P3|]. split; [intros _; exists "o"%char; split; [cbn; auto|apply has_priv_ok; vm_compute; reflexivity]|apply not_on_b; vm_compute; reflexivity]. }
  split; [left; apply memb_In; exact P2|]. split; [apply Nat.eqb_eq; exact P4|]. rewrite H, R. reflexivity.
Qed.

(** ** C48 *)
(** One line of a client that is neither a server nor an outgoing connection to one: if a client becomes a server link
    by it, the line is a SERVER command with the name of a configured server, and the connection has sent
    the password that is configured for this server. *)
Theorem C48_line : forall s i h c text b s', live s -> undisturbed s' -> client_of s i h c -> plain_type (cl_type c) -> Parse_Request i text s = Ok b s' ->
  forall j d d', lookup j (s_heap s) = Some d -> lookup j (s_heap s') = Some d' -> ~ is_link s j -> is_link s' j -> (cl_type c = T_GOTPASS \/ cl_type c = T_GOTPASS_2813) /\ server_login s i text.
Proof. exact link_line. Qed.
Print Assumptions C48_line.
(** Any event. *)
Theorem C48_event : forall e s s' h, live s -> undisturbed s' -> (exists c, lookup h (s_heap s) = Some c) -> step e s = Ok tt s' -> ~ is_link s h -> is_link s' h ->
  exists i h' c text b s1 s2, live s1 /\ actions s s1 /\ client_of s1 i h' c /\ Parse_Request i text s1 = Ok b s2 /\ actions s2 s' /\
    (~ plain_type (cl_type c) \/ server_login s1 i text).
Proof. exact link_event. Qed.
Print Assumptions C48_event.
(** hub.example.net has sent PASS and introduces itself *)
Notation st_hub := (final conf0 [peer] (two_users ++ [E_Accept 7 (B "1.2.3.9") false; E_Resolved 7 []; E_Data 7 (crlf "PASS in 0210-IRC+ ngIRCd|26:CLMSX")])).
Lemma st_hub_reachable : reachable st_hub.
Proof. apply reach_final; [exact conf0_ok|vm_compute; reflexivity]. Qed.
Definition link_b (s : state) (h : handle) : bool := match lookup h (s_heap s) with Some c => type_b T_UNKNOWNSERVER c || type_b T_SERVER c | None => false end.
Lemma link_b_ok : forall s h, link_b s h = true <-> is_link s h.
Proof.
  intros s h. unfold link_b, is_link. destruct (lookup h (s_heap s)) as [c|]; [|split; [discriminate|intros (x & E & _); discriminate E]]. rewrite orb_true_iff. split.
  - intros H. exists c. split; auto. destruct H as [H|H]; apply type_b_ok in H; auto.
  - intros (x & E & H). injection E as <-. unfold type_b. destruct H as [H|H]; rewrite H; auto.
Qed.
Definition on_conn (i : connid) (s : state) : handle := match assoc i (s_conns s) with Some c => match co_client c with Some h => h | None => 0 end | None => 0 end.
Example C48_nonvacuous : exists h c s', live st_hub /\ undisturbed s' /\ client_of st_hub 7 h c /\ plain_type (cl_type c) /\ Parse_Request 7 (B "SERVER hub.example.net 1 :Hub") st_hub = Ok CONNECTED s' /\ ~ is_link st_hub h /\ is_link s' h.
Proof.
  destruct (serves_ok st_hub 7 (on_conn 7 st_hub) (fun c => type_b T_GOTPASS_2813 c)) as (c & C & T); [vm_compute; reflexivity|]. apply type_b_ok in T.
  destruct (doing_ok _ (Parse_Request 7 (B "SERVER hub.example.net 1 :Hub")) st_hub (fun b s => b && calm s && link_b s (on_conn 7 st_hub))) as (b & s' & H & R); [vm_compute; reflexivity|]. rewrite !andb_true_iff in R. destruct R as [[R1 R2] R3].
  exists (on_conn 7 st_hub), c, s'. split; [apply V_reach; exact st_hub_reachable|]. split; [apply calm_ok; exact R2|]. split; [exact C|]. split; [rewrite T; repeat split; discriminate|]. split; [rewrite H, R1; reflexivity|].
  split; [|apply link_b_ok; exact R3]. intros (x & E & K). destruct C as [_ C]. rewrite C in E. injection E as <-. rewrite T in K. destruct K; discriminate.
Qed.
(** A wrong password, a wrong name, no password. *)
Example C48_refused : forall t s', In t ["SERVER other.example.net 1 :Hub"; "SERVER hub.example.net 1 2 3 :Hub"]%string -> step (E_Data 7 (crlf t)) st_hub = Ok tt s' -> link_b s' (on_conn 7 st_hub) = false.
Proof. intros t s' I H. assert (Q : negb (link_b s' (on_conn 7 st_hub)) = true) by (eapply (doing_all 7 st_hub (fun s => negb (link_b s (on_conn 7 st_hub)))); [|exact I|exact H]; vm_compute; reflexivity). apply negb_true_iff. exact Q. Qed.
(** An outgoing connection does not have to be authenticated: whoever answers at the address of the configured server
    becomes a server link by sending a numeric 376, without name and password (numeric.c:258). *)
Notation st_bypass := (final conf0 [peer] (two_users ++ [E_NewServer 0 9 (B "1.2.3.9"); E_ServerUp 9 true; E_Data 9 (crlf "376 *")])).
Lemma hd_ok : forall (l : list cserver) f, match hd_error l with Some sv => f sv | None => false end = true -> exists sv, In sv l /\ f sv = true.
Proof. intros [|sv l] f H; [discriminate H|]. exists sv. split; [left; reflexivity|exact H]. Qed.
Theorem C48_outgoing_refuted : exists s i h c cn sv, reachable s /\ undisturbed s /\ client_of s i h c /\ cl_type c = T_SERVER /\ lookup i (s_conns s) = Some cn /\ In sv (s_servers s) /\ sv_conn sv = Some i /\ given_password cn <> sv_pwd_in sv /\ ~ same_name (cl_id c) (sv_name sv).
Proof.
  destruct (serves_ok st_bypass 9 (on_conn 9 st_bypass) (fun c => type_b T_SERVER c && match hd_error (s_servers st_bypass) with Some sv => conn_b 9 (fun cn => negb (beq (given_password cn) (sv_pwd_in sv))) st_bypass && negb (name_b (cl_id c) (sv_name sv)) && match sv_conn sv with Some j => Nat.eqb j 9 | None => false end | None => false end)) as (c & C & T); [vm_compute; reflexivity|].
  rewrite andb_true_iff in T. destruct T as [T Q]. apply type_b_ok in T. apply hd_ok in Q. destruct Q as (sv & ES & Q). rewrite !andb_true_iff, negb_true_iff in Q. destruct Q as [[Q1 Q2] Q3]. destruct (sv_conn sv) as [j9|] eqn:EJ; [|discriminate Q3]. apply Nat.eqb_eq in Q3. subst j9. apply conn_b_ok in Q1. destruct Q1 as (cn & K1 & K2). apply negb_true_iff in K2.
  exists st_bypass, 9, (on_conn 9 st_bypass), c, cn, sv. split; [apply reach_final; [exact conf0_ok|vm_compute; reflexivity]|]. split; [apply calm_ok; vm_compute; reflexivity|]. split; [exact C|]. split; [exact T|]. split; [rewrite lookup_assoc; exact K1|]. split; [exact ES|]. split; [exact EJ|].
  split; [intro E; apply beq_eq in E; congruence|intro E; apply name_b_ok in E; congruence].
Qed.
Print Assumptions C48_outgoing_refuted.
