(** Property theorems about what is forwarded to other servers (C28, C29) and what other users see of a cloaked
    user (C31). *)
From Coq Require Import List Ascii String ZArith NArith Bool Lia Arith.
From Verif Require Import Bytes Match Lists ParseReq State Monad Core Write Info Chan Mode Msg Login Oper Server Dispatch Conn WF RelCmd Tree Live Observ HandLine Output HandDo HandSend HandCast Sessions PropsUser PropsLogin PropsSend PropsMore Spec SpecLink.
Import ListNotations.

(** ** C28 and C29 *)
(** A KICK of one user from one channel which takes effect (given by a user of this server who may do it, or by a
    user behind a linked server): every linked server except the source is told exactly once, and every local
    member; if the channel is local, no server is told anything. *)
Theorem C28_kick_partial : forall s i h c text name nick t u d g e ch k b s', live s -> undisturbed s -> client_of s i h c -> acts s h c text "KICK" [name; nick; t] u d -> nick_fits d -> settled d ->
  ~ In ","%char name -> ~ In ","%char nick -> the_channel s name ch k -> the_client s nick g e -> nick_fits e -> cl_type e = T_USER -> is_on s g ch ->
  (cl_type c = T_USER -> may_kick s u d ch k g e) -> Parse_Request i text s = Ok b s' ->
  ~ is_on s' g ch /\ (~ local_name (ch_name k) -> to_servers s s' i d (kick_text (ch_name k) (cl_id e) t)) /\ (local_name (ch_name k) -> to_no_server s s') /\
  to_members s s' ch d (kick_text (ch_name k) (cl_id e) t) /\ to_nobody_else s s' ch.
Proof. exact kick_link. Qed.
Print Assumptions C28_kick_partial.
(** The same for PART. *)
Theorem C28_part_partial : forall s i h c text name args t u d ch k b s', live s -> undisturbed s -> client_of s i h c -> acts s h c text "PART" args u d -> args = [name; t] \/ args = [name] /\ t = [] -> nick_fits d -> settled d ->
  name <> [] -> ~ In ","%char name -> the_channel s name ch k -> is_on s u ch -> Parse_Request i text s = Ok b s' ->
  let reason := if cf_moreprivacy (s_conf s) then [] else t in
  ~ is_on s' u ch /\ (~ local_name (ch_name k) -> to_servers s s' i d (part_text (ch_name k) reason)) /\ (local_name (ch_name k) -> to_no_server s s') /\
  to_members s s' ch d (part_text (ch_name k) reason) /\ to_nobody_else s s' ch.
Proof. exact part_link. Qed.
Print Assumptions C28_part_partial.
(** The same for TOPIC; the local members are only told if the topic is another one, the sender always. *)
Theorem C28_topic_partial : forall s i h c text name t u d ch k b s', live s -> undisturbed s -> client_of s i h c -> acts s h c text "TOPIC" [name; t] u d -> nick_fits d -> settled d ->
  cf_operservermode (s_conf s) = false -> the_channel s name ch k -> (cl_type c = T_USER -> may_set_topic s u d ch k) -> Parse_Request i text s = Ok b s' ->
  (~ local_name (ch_name k) -> to_servers s s' i d (speech (B "TOPIC") name t)) /\ (local_name (ch_name k) -> to_no_server s s') /\
  (forall j x, local_on s j ch x -> i <> j -> is_open s j = true -> written s s' j (if beq t (ch_topic k) then [] else [line_from s d x (speech (B "TOPIC") name t)])) /\
  (cl_type c = T_USER -> is_open s i = true -> written s s' i [line_from s d c (speech (B "TOPIC") name t)]) /\
  (forall j, is_open s j = true -> (forall x, ~ link s j x) -> (forall x, ~ local_on s j ch x) -> i <> j -> written s s' j []).
Proof. exact topic_link. Qed.
Print Assumptions C28_topic_partial.

(** Local channels: no linked server is told anything of a KICK, a PART, a TOPIC *)
Theorem C29_kick_partial : forall s i h c text name nick t u d g e ch k b s', live s -> undisturbed s -> client_of s i h c -> acts s h c text "KICK" [name; nick; t] u d -> nick_fits d -> settled d ->
  ~ In ","%char name -> ~ In ","%char nick -> the_channel s name ch k -> the_client s nick g e -> nick_fits e -> cl_type e = T_USER -> is_on s g ch ->
  (cl_type c = T_USER -> may_kick s u d ch k g e) -> Parse_Request i text s = Ok b s' -> local_name (ch_name k) -> to_no_server s s'.
Proof. intros s i h c text name nick t u d g e ch k b s' H1 H2 H3 H4 H5 H6 H7 H8 H9 H10 H11 H12 H13 H14 H15. exact (proj1 (proj2 (proj2 (kick_link s i h c text name nick t u d g e ch k b s' H1 H2 H3 H4 H5 H6 H7 H8 H9 H10 H11 H12 H13 H14 H15)))). Qed.
Print Assumptions C29_kick_partial.
Theorem C29_part_partial : forall s i h c text name args t u d ch k b s', live s -> undisturbed s -> client_of s i h c -> acts s h c text "PART" args u d -> args = [name; t] \/ args = [name] /\ t = [] -> nick_fits d -> settled d ->
  name <> [] -> ~ In ","%char name -> the_channel s name ch k -> is_on s u ch -> Parse_Request i text s = Ok b s' -> local_name (ch_name k) -> to_no_server s s'.
Proof. intros s i h c text name args t u d ch k b s' H1 H2 H3 H4 H5 H6 H7 H8 H9 H10 H11 H12. exact (proj1 (proj2 (proj2 (part_link s i h c text name args t u d ch k b s' H1 H2 H3 H4 H5 H6 H7 H8 H9 H10 H11 H12)))). Qed.
Print Assumptions C29_part_partial.
Theorem C29_topic_partial : forall s i h c text name t u d ch k b s', live s -> undisturbed s -> client_of s i h c -> acts s h c text "TOPIC" [name; t] u d -> nick_fits d -> settled d ->
  cf_operservermode (s_conf s) = false -> the_channel s name ch k -> (cl_type c = T_USER -> may_set_topic s u d ch k) -> Parse_Request i text s = Ok b s' -> local_name (ch_name k) -> to_no_server s s'.
Proof. intros s i h c text name t u d ch k b s' H1 H2 H3 H4 H5 H6 H7 H8 H9 H10. exact (proj1 (proj2 (topic_link s i h c text name t u d ch k b s' H1 H2 H3 H4 H5 H6 H7 H8 H9 H10))). Qed.
Print Assumptions C29_topic_partial.
(** nor of a message on a channel (local or not) all members of which are users of this server *)
Theorem C29_message_partial : forall s i h c text n name msg b s' ch k me, live s -> undisturbed s -> client_of s i h c -> cl_type c = T_USER -> settled c ->
  lookup This_Server (s_heap s) = Some me -> ~ In "x"%char (cl_modes me) -> orders s text n [name; msg] -> In n ["PRIVMSG"; "NOTICE"]%string -> msg <> [] -> only_channel s name -> the_channel s name ch k -> may_speak s h c ch k -> Parse_Request i text s = Ok b s' ->
  (forall g, is_on s g ch -> exists d j, lookup g (s_heap s) = Some d /\ cl_type d = T_USER /\ cl_conn d = Some j) -> to_no_server s s'.
Proof.
  intros s i h c text n name msg b s' ch k me H1 H2 H3 H4 H5 H6 H7 H8 H9 H10 H11 H12 M H13 AL j x (g & [_ K1] & K2 & K3) OP.
  apply (C17_relayed s i h c text n name msg b s' ch k me H1 H2 H3 H4 H5 H6 H7 H8 H9 H10 H11 H12 H13 M j). intros _ d (m & y & ON & NX & NE & KY & CY). destruct (AL _ ON) as (e & j' & E1 & E2 & E3). pose proof (live_itree _ H1 H2) as T.
  rewrite lookup_assoc in *. assert (y = m) by (exact (local_hop s m e j' y T E1 E3 NX)). subst y. assert (EQ : Some e = Some d) by (rewrite <- E1, <- KY; reflexivity). injection EQ as <-. destruct (conn_client _ _ _ _ _ _ T K1 E1 K3 CY) as [_ EE]. congruence.
Qed.
Print Assumptions C29_message_partial.

(** ** C31 *)
(** a line of the user [d] with the host name [host] in the prefix *)
Definition line_with (d : client) (host m : bytes) : bytes := on_wire (":"%char :: (cl_id d ++ "!"%char :: cl_user d ++ "@"%char :: host) ++ " "%char :: m).
Lemma cloaked_line : forall s d x m t, cl_type x <> T_SERVER -> In "x"%char (cl_modes d) -> cl_cloaked d = Some t -> line_from s d x m = line_with d t m.
Proof. intros s d x m t TX X CL. unfold line_from, line_with, shown_mask, shown_host. apply memb_In in X. rewrite X, CL. destruct (cl_type x); try congruence; reflexivity. Qed.
(** For a cloaked user the lines which users are sent have the cloaked host name in the prefix, whatever his real one is:
    his messages to channels *)
Theorem C31_channel_partial : forall s i h c text n name msg b s' ch k me t, live s -> undisturbed s -> client_of s i h c -> cl_type c = T_USER -> In "x"%char (cl_modes c) -> cl_cloaked c = Some t ->
  lookup This_Server (s_heap s) = Some me -> ~ In "x"%char (cl_modes me) -> orders s text n [name; msg] -> In n ["PRIVMSG"; "NOTICE"]%string -> msg <> [] -> only_channel s name -> the_channel s name ch k -> may_speak s h c ch k -> Parse_Request i text s = Ok b s' ->
  forall j d, is_open s j = true -> goes_to s h ch j d -> cl_type d <> T_SERVER -> written s s' j [line_with c t (speech (B n) (ch_name k) msg)].
Proof.
  intros s i h c text n name msg b s' ch k me t H1 H2 H3 H4 X CL H6 H7 H8 H9 H10 H11 H12 M H13 j d OP G TD. rewrite <- (cloaked_line s c d _ t TD X CL).
  apply (C17_relayed s i h c text n name msg b s' ch k me H1 H2 H3 H4 ltac:(intros _ E; congruence) H6 H7 H8 H9 H10 H11 H12 H13 M j); auto.
Qed.
Print Assumptions C31_channel_partial.
(** his messages to a user of this server (who is not away) *)
Theorem C31_private_partial : forall s i h c text n t msg b s' g d me j v, live s -> undisturbed s -> client_of s i h c -> cl_type c = T_USER -> In "x"%char (cl_modes c) -> cl_cloaked c = Some v -> is_open s i = true ->
  lookup This_Server (s_heap s) = Some me -> ~ In "x"%char (cl_modes me) -> orders s text n [t; msg] -> In n ["PRIVMSG"; "NOTICE"]%string -> msg <> [] -> t <> [] -> (forall x, In x t -> ~ In x (B ",!")) ->
  the_client s t g d -> cl_type d = T_USER -> cl_conn d = Some j -> ~ In "a"%char (cl_modes d) -> may_reach s h c g d -> is_open s j = true -> Parse_Request i text s = Ok b s' ->
  written s s' j [line_with c v (speech (B n) (cl_id d) msg)].
Proof.
  intros s i h c text n t msg b s' g d me j v H1 H2 H3 H4 X CL H5 H6 H7 H8 H9 H10 H11 H12 H13 TD CJ NA MR OP H.
  destruct (C41_delivered s i h c text n t msg b s' g d me H1 H2 H3 H4 ltac:(intros _ E; congruence) H5 H6 H7 H8 H9 H10 H11 H12 H13 ltac:(rewrite TD; left; reflexivity) H MR) as (x & dx & j' & N & K1 & K2 & W).
  assert (E : x = g /\ dx = d /\ j' = j). { destruct H13 as [[_ K] _]. assert (x = g) by (rewrite lookup_assoc in K; exact (local_hop s g d j x (live_itree _ H1 H2) K CJ N)). subst x. rewrite K in K1. injection K1 as <-. rewrite CJ in K2. injection K2 as <-. auto. }
  destruct E as (-> & -> & ->). specialize (W j). assert (NA2 : memb "a" (cl_modes d) = false) by (destruct (memb "a" (cl_modes d)) eqn:E; auto; apply memb_In in E; contradiction). rewrite NA2, andb_false_r, Nat.eqb_refl, OP in W. cbn [andb app] in W. rewrite <- (cloaked_line s c d _ v); [exact W|congruence|exact X|exact CL].
Qed.
Print Assumptions C31_private_partial.
(** what the local members of a channel are told when he kicks somebody, leaves the channel or sets the topic *)
Theorem C31_kick_partial : forall s i h c text name nick t u d g e ch k b s' v, live s -> undisturbed s -> client_of s i h c -> acts s h c text "KICK" [name; nick; t] u d -> nick_fits d -> In "x"%char (cl_modes d) -> cl_cloaked d = Some v ->
  ~ In ","%char name -> ~ In ","%char nick -> the_channel s name ch k -> the_client s nick g e -> nick_fits e -> cl_type e = T_USER -> is_on s g ch ->
  (cl_type c = T_USER -> may_kick s u d ch k g e) -> Parse_Request i text s = Ok b s' ->
  forall j x, local_on s j ch x -> is_open s j = true -> written s s' j [line_with d v (kick_text (ch_name k) (cl_id e) t)].
Proof.
  intros s i h c text name nick t u d g e ch k b s' v L U C AC NF X CL N1 N2 TC TG NG TE ON MK H j x LO OP. destruct (kick_link s i h c text name nick t u d g e ch k b s' L U C AC NF ltac:(intros _ E; congruence) N1 N2 TC TG NG TE ON MK H) as (_ & _ & _ & R & _).
  rewrite <- (cloaked_line s d x); [apply R; auto| |exact X|exact CL]. destruct LO as (y & _ & _ & _ & T). exact T.
Qed.
Print Assumptions C31_kick_partial.
Theorem C31_part_partial : forall s i h c text name args t u d ch k b s' v, live s -> undisturbed s -> client_of s i h c -> acts s h c text "PART" args u d -> args = [name; t] \/ args = [name] /\ t = [] -> nick_fits d -> In "x"%char (cl_modes d) -> cl_cloaked d = Some v ->
  name <> [] -> ~ In ","%char name -> the_channel s name ch k -> is_on s u ch -> Parse_Request i text s = Ok b s' ->
  forall j x, local_on s j ch x -> is_open s j = true -> written s s' j [line_with d v (part_text (ch_name k) (if cf_moreprivacy (s_conf s) then [] else t))].
Proof.
  intros s i h c text name args t u d ch k b s' v L U C AC EA NF X CL N1 N2 TC ON H j x LO OP. destruct (part_link s i h c text name args t u d ch k b s' L U C AC EA NF ltac:(intros _ E; congruence) N1 N2 TC ON H) as (_ & _ & _ & R & _).
  rewrite <- (cloaked_line s d x); [apply R; auto| |exact X|exact CL]. destruct LO as (y & _ & _ & _ & T). exact T.
Qed.
Print Assumptions C31_part_partial.
Theorem C31_topic_partial : forall s i h c text name t u d ch k b s' v, live s -> undisturbed s -> client_of s i h c -> acts s h c text "TOPIC" [name; t] u d -> nick_fits d -> In "x"%char (cl_modes d) -> cl_cloaked d = Some v ->
  cf_operservermode (s_conf s) = false -> the_channel s name ch k -> (cl_type c = T_USER -> may_set_topic s u d ch k) -> Parse_Request i text s = Ok b s' -> t <> ch_topic k ->
  forall j x, local_on s j ch x -> i <> j -> is_open s j = true -> written s s' j [line_with d v (speech (B "TOPIC") name t)].
Proof.
  intros s i h c text name t u d ch k b s' v L U C AC NF X CL O TC MS H NT j x LO NE OP. destruct (topic_link s i h c text name t u d ch k b s' L U C AC NF ltac:(intros _ E; congruence) O TC MS H) as (_ & _ & R & _).
  specialize (R j x LO NE OP). assert (E : beq t (ch_topic k) = false) by (destruct (beq t (ch_topic k)) eqn:E; auto; apply beq_eq in E; contradiction). rewrite E in R. rewrite <- (cloaked_line s d x); [exact R| |exact X|exact CL]. destruct LO as (y & _ & _ & _ & T). exact T.
Qed.
Print Assumptions C31_topic_partial.

(** ** examples *)
(** a second linked server *)
Definition peer2 : cserver := mkCserver (B "1.2.3.8") (B "other.example.net") (B "in2") (B "out2") 6667 (-1) 0 false false None [].
Definition link2 : list event := [E_Accept 8 (B "1.2.3.8") false; E_Resolved 8 []; E_Data 8 (lines ["PASS in2 0210-IRC+ ngIRCd|26:CLMSX"; "SERVER other.example.net 1 :Other"]%string); E_Time 2020 7].
Notation st_two := (final conf0 [peer; peer2] (two_users ++ Sessions.link ++ link2)).
Lemma st_two_reachable : reachable st_two.
Proof. apply reach_final; [exact conf0_ok|vm_compute; reflexivity]. Qed.
Definition link_is (s : state) (j : connid) (h : handle) : bool := has s h (fun c => type_b T_SERVER c && match cl_conn c with Some x => Nat.eqb x j | None => false end).
Lemma link_is_ok : forall s j h, link_is s j h = true -> exists d, link s j d.
Proof. intros s j h H. apply has_ok in H. destruct H as (c & K & H). apply andb_true_iff in H. destruct H as [H1 H2]. apply type_b_ok in H1. destruct (cl_conn c) as [x|] eqn:E; [|discriminate H2]. apply Nat.eqb_eq in H2. subst x. exists c, h. auto. Qed.
Definition plain_user (c : client) : bool := type_b T_USER c && negb (memb "x" (cl_modes c)) && negb (beq (cl_id c) []) && Nat.ltb (List.length (cl_id c)) 32.
Lemma plain_user_ok : forall c, plain_user c = true -> cl_type c = T_USER /\ settled c /\ nick_fits c.
Proof.
  intros c H. unfold plain_user in H. rewrite !andb_true_iff, !negb_true_iff in H. destruct H as [[[H1 H2] H3] H4]. apply type_b_ok in H1. split; auto. split; [intro I; destruct (not_In_b _ _ H2 I)|]. split; [intro E; rewrite E in H3; discriminate H3|apply Nat.ltb_lt; exact H4].
Qed.
(** carol, behind the server on connection 7, gives an order *)
Definition acts_b (s : state) (h : handle) (text : bytes) (n : string) (args : list bytes) (u : handle) : bool :=
  match parse_line (trim text) with Some (mkReq (Some p) name a) => name_b name (B n) && (if list_eq_dec (list_eq_dec ascii_dec) a args then true else false) && the_client_b s p u | _ => false end &&
  negb (cf_scrubctcp (s_conf s)) && negb (Nat.eqb u h) && negb (Nat.eqb h This_Server) && has s u (fun d => type_b T_USER d && match cl_introducer d with Some x => Nat.eqb x h | None => false end) &&
  has s h (fun c => type_b T_SERVER c && match cl_introducer c with Some x => Nat.eqb x h || Nat.eqb x This_Server | None => true end).
Lemma acts_ok : forall s h c text n args u d, lookup h (s_heap s) = Some c -> known s u d -> acts_b s h text n args u = true -> acts s h c text n args u d.
Proof.
  intros s h c text n args u d A K H. unfold acts_b in H. rewrite !andb_true_iff, !negb_true_iff in H. destruct H as [[[[[H1 H2] H3] H4] H5] H6]. apply has_ok in H5, H6. destruct H5 as (d' & K1 & H5). destruct H6 as (c' & K2 & H6).
  destruct K as [KA KB]. destruct K1 as [KC KD]. destruct K2 as [KE KF]. rewrite KB in KD. injection KD as <-. rewrite A in KF. injection KF as <-. apply andb_true_iff in H5, H6. destruct H5 as [H5 H7]. destruct H6 as [H6 H8]. apply type_b_ok in H5, H6. right. split; auto. split.
  - destruct (parse_line (trim text)) as [[[p|] name a]|]; try discriminate H1. rewrite !andb_true_iff in H1. destruct H1 as [[H1 H9] H10]. destruct (list_eq_dec (list_eq_dec ascii_dec) a args) as [-> |]; [|discriminate H9]. exists p, name. split; auto. split; [apply name_b_ok; exact H1|]. apply the_client_ok; [split; auto|exact H10].
  - split; [intro X; congruence|]. split; auto. destruct (cl_introducer d) as [x|] eqn:E; [|discriminate H7]. apply Nat.eqb_eq in H7. subst x. apply Nat.eqb_neq in H3, H4.
    eapply NH_via; [exact KB|exact E|congruence|exact H4|]. eapply NH_direct; [exact A|]. destruct (cl_introducer c) as [x|]; auto. apply orb_true_iff in H8. destruct H8 as [H8|H8]; apply Nat.eqb_eq in H8; subst x; auto.
Qed.
(** carol kicks bob: the server she is behind is told nothing, the other one and the members are *)
Example C28_kick_nonvacuous : exists c d e k s', let hub := named "hub.example.net" st_two in let carol := named "carol" st_two in let bob := named "bob" st_two in let ch := cnamed "#Test" st_two in
  live st_two /\ undisturbed st_two /\ client_of st_two 7 hub c /\ acts st_two hub c (B ":carol KICK #test bob :out") "KICK" [B "#test"; B "bob"; B "out"] carol d /\ nick_fits d /\ settled d /\
  the_channel st_two (B "#test") ch k /\ the_client st_two (B "bob") bob e /\ nick_fits e /\ cl_type e = T_USER /\ is_on st_two bob ch /\ cl_type c = T_SERVER /\ ~ local_name (ch_name k) /\
  (exists x, link st_two 7 x) /\ (exists x, link st_two 8 x) /\
  Parse_Request 7 (B ":carol KICK #test bob :out") st_two = Ok CONNECTED s' /\ ~ is_on s' bob ch /\
  sends 8 ":carol KICK #Test bob :out" s' = true /\ sends 7 ":carol KICK #Test bob :out" s' = false /\ sends 6 ":carol!carol@host.example.org KICK #Test bob :out" s' = true /\ sends 5 ":carol!carol@host.example.org KICK #Test bob :out" s' = true.
Proof.
  destruct (serves_ok st_two 7 (named "hub.example.net" st_two) (type_b T_SERVER)) as (c & C & T); [vm_compute; reflexivity|]. apply type_b_ok in T.
  destruct (has_ok st_two (named "carol" st_two) plain_user) as (d & D1 & D2); [vm_compute; reflexivity|]. apply plain_user_ok in D2. destruct D2 as (D2 & D3 & D4).
  destruct (has_ok st_two (named "bob" st_two) plain_user) as (e & E1 & E2); [vm_compute; reflexivity|]. apply plain_user_ok in E2. destruct E2 as (E2 & E3 & E4).
  destruct (chas_ok st_two (cnamed "#Test" st_two) (fun k => the_channel_b st_two (B "#test") (cnamed "#Test" st_two) k && negb (Ascii.eqb (hd0 (ch_name k)) "&"))) as (k & K & P); [vm_compute; reflexivity|]. rewrite !andb_true_iff, negb_true_iff in P. destruct P as [P1 P2].
  destruct (doing_ok _ (Parse_Request 7 (B ":carol KICK #test bob :out")) st_two (fun b s => b && negb (on_b (named "bob" st_two) (cnamed "#Test" st_two) s) && sends 8 ":carol KICK #Test bob :out" s && negb (sends 7 ":carol KICK #Test bob :out" s) &&
     sends 6 ":carol!carol@host.example.org KICK #Test bob :out" s && sends 5 ":carol!carol@host.example.org KICK #Test bob :out" s)) as (b & s' & H & R); [vm_compute; reflexivity|]. rewrite !andb_true_iff, !negb_true_iff in R. destruct R as [[[[[R1 R2] R3] R4] R5] R6].
  exists c, d, e, k, s'. cbv zeta. split; [apply V_reach; exact st_two_reachable|]. split; [apply calm_ok; vm_compute; reflexivity|]. split; [exact C|].
  split; [apply acts_ok; [apply C|exact D1|vm_compute; reflexivity]|]. split; [exact D4|]. split; [exact D3|]. split; [apply the_channel_ok; auto|]. split; [apply the_client_ok; [exact E1|vm_compute; reflexivity]|]. split; [exact E4|]. split; [exact E2|].
  split; [apply on_b_ok; vm_compute; reflexivity|]. split; [exact T|]. split; [intro X; apply local_hd in X; congruence|]. split; [apply (link_is_ok _ _ (named "hub.example.net" st_two)); vm_compute; reflexivity|]. split; [apply (link_is_ok _ _ (named "other.example.net" st_two)); vm_compute; reflexivity|].
  split; [rewrite H, R1; reflexivity|]. split; [apply not_on_b; exact R2|]. auto.
Qed.
(** alice, who has made &loc, sets its topic: the servers are told nothing *)
Notation st_loc := (final conf0 [peer; peer2] (two_users ++ Sessions.link ++ link2 ++ [E_Data 5 (crlf "JOIN &loc"); E_Time 2030 7; E_Data 6 (crlf "JOIN &LOC"); E_Time 2040 7])).
Lemma st_loc_reachable : reachable st_loc.
Proof. apply reach_final; [exact conf0_ok|vm_compute; reflexivity]. Qed.
Definition to_conn (i : connid) (l : list (connid * bytes)) : nat := List.length (filter (fun p => Nat.eqb (fst p) i) l).
Example C29_topic_nonvacuous : exists c k s', let alice := named "alice" st_loc in let ch := cnamed "&loc" st_loc in
  live st_loc /\ undisturbed st_loc /\ client_of st_loc 5 alice c /\ cl_type c = T_USER /\ orders st_loc (B "TOPIC &loc :Hi") "TOPIC" [B "&loc"; B "Hi"] /\ nick_fits c /\ settled c /\ the_channel st_loc (B "&loc") ch k /\ may_set_topic st_loc alice c ch k /\
  cf_operservermode (s_conf st_loc) = false /\ local_name (ch_name k) /\ (exists x, link st_loc 7 x) /\ Parse_Request 5 (B "TOPIC &loc :Hi") st_loc = Ok CONNECTED s' /\ to_conn 7 (s_out s') = to_conn 7 (s_out st_loc) /\ sends 6 ":alice!~alice@1.2.3.4 TOPIC &loc :Hi" s' = true.
Proof.
  destruct (serves_ok st_loc 5 (named "alice" st_loc) plain_user) as (c & C & T); [vm_compute; reflexivity|]. apply plain_user_ok in T. destruct T as (T1 & T2 & T3).
  destruct (chas_ok st_loc (cnamed "&loc" st_loc) (fun k => the_channel_b st_loc (B "&loc") (cnamed "&loc" st_loc) k && Ascii.eqb (hd0 (ch_name k)) "&" && negb (memb "t" (ch_modes k)))) as (k & K & P); [vm_compute; reflexivity|]. rewrite !andb_true_iff, negb_true_iff in P. destruct P as [[P1 P2] P3].
  destruct (doing_ok _ (Parse_Request 5 (B "TOPIC &loc :Hi")) st_loc (fun b s => b && Nat.eqb (to_conn 7 (s_out s)) (to_conn 7 (s_out st_loc)) && sends 6 ":alice!~alice@1.2.3.4 TOPIC &loc :Hi" s)) as (b & s' & H & R); [vm_compute; reflexivity|]. rewrite !andb_true_iff in R. destruct R as [[R1 R2] R3]. apply Nat.eqb_eq in R2.
  exists c, k, s'. cbv zeta. split; [apply V_reach; exact st_loc_reachable|]. split; [apply calm_ok; vm_compute; reflexivity|]. split; [exact C|]. split; [exact T1|]. split; [apply orders_b; vm_compute; reflexivity|]. split; [exact T3|]. split; [exact T2|].
  split; [apply the_channel_ok; auto|]. split; [right; split; [apply on_b_ok; vm_compute; reflexivity|left; apply not_In_b; exact P3]|]. split; [vm_compute; reflexivity|]. split; [apply local_hd; exact P2|]. split; [apply (link_is_ok _ _ (named "hub.example.net" st_loc)); vm_compute; reflexivity|].
  split; [rewrite H, R1; reflexivity|]. split; [exact R2|exact R3].
Qed.
(** But the lists of bans, exceptions and invitations of a local channel are not kept local: a change is told to all
    linked servers. *)
Theorem C29_lists_refuted : exists c k s', let alice := named "alice" st_loc in let ch := cnamed "&loc" st_loc in
  live st_loc /\ undisturbed st_loc /\ client_of st_loc 5 alice c /\ cl_type c = T_USER /\ orders st_loc (B "MODE &loc +b eve!*@*") "MODE" [B "&loc"; B "+b"; B "eve!*@*"] /\ the_channel st_loc (B "&loc") ch k /\ local_name (ch_name k) /\
  (exists x, link st_loc 7 x) /\ Parse_Request 5 (B "MODE &loc +b eve!*@*") st_loc = Ok CONNECTED s' /\ sends 7 ":alice MODE &loc +b eve!*@*" s' = true /\ sends 8 ":alice MODE &loc +b eve!*@*" s' = true.
Proof.
  destruct (serves_ok st_loc 5 (named "alice" st_loc) plain_user) as (c & C & T); [vm_compute; reflexivity|]. apply plain_user_ok in T. destruct T as (T1 & T2 & T3).
  destruct (chas_ok st_loc (cnamed "&loc" st_loc) (fun k => the_channel_b st_loc (B "&loc") (cnamed "&loc" st_loc) k && Ascii.eqb (hd0 (ch_name k)) "&")) as (k & K & P); [vm_compute; reflexivity|]. rewrite !andb_true_iff in P. destruct P as [P1 P2].
  destruct (doing_ok _ (Parse_Request 5 (B "MODE &loc +b eve!*@*")) st_loc (fun b s => b && sends 7 ":alice MODE &loc +b eve!*@*" s && sends 8 ":alice MODE &loc +b eve!*@*" s)) as (b & s' & H & R); [vm_compute; reflexivity|]. rewrite !andb_true_iff in R. destruct R as [[R1 R2] R3].
  exists c, k, s'. cbv zeta. split; [apply V_reach; exact st_loc_reachable|]. split; [apply calm_ok; vm_compute; reflexivity|]. split; [exact C|]. split; [exact T1|]. split; [apply orders_b; vm_compute; reflexivity|].
  split; [apply the_channel_ok; auto|]. split; [apply local_hd; exact P2|]. split; [apply (link_is_ok _ _ (named "hub.example.net" st_loc)); vm_compute; reflexivity|]. split; [rewrite H, R1; reflexivity|auto].
Qed.
Print Assumptions C29_lists_refuted.
(** and a linked server which lets one of its users join a local channel is not stopped: the user is put on the
    channel and the other servers are told *)
Theorem C29_njoin_refuted : exists c k s', let hub := named "hub.example.net" st_loc in let carol := named "carol" st_loc in let ch := cnamed "&loc" st_loc in
  live st_loc /\ undisturbed st_loc /\ client_of st_loc 7 hub c /\ cl_type c = T_SERVER /\ the_channel st_loc (B "&loc") ch k /\ local_name (ch_name k) /\ ~ is_on st_loc carol ch /\
  Parse_Request 7 (B ":hub.example.net NJOIN &loc :carol") st_loc = Ok CONNECTED s' /\ is_on s' carol ch /\ sends 8 ":irc.example.net NJOIN &loc :carol" s' = true.
Proof.
  destruct (serves_ok st_loc 7 (named "hub.example.net" st_loc) (type_b T_SERVER)) as (c & C & T); [vm_compute; reflexivity|]. apply type_b_ok in T.
  destruct (chas_ok st_loc (cnamed "&loc" st_loc) (fun k => the_channel_b st_loc (B "&loc") (cnamed "&loc" st_loc) k && Ascii.eqb (hd0 (ch_name k)) "&")) as (k & K & P); [vm_compute; reflexivity|]. rewrite !andb_true_iff in P. destruct P as [P1 P2].
  destruct (doing_ok _ (Parse_Request 7 (B ":hub.example.net NJOIN &loc :carol")) st_loc (fun b s => b && on_b (named "carol" st_loc) (cnamed "&loc" st_loc) s && sends 8 ":irc.example.net NJOIN &loc :carol" s)) as (b & s' & H & R); [vm_compute; reflexivity|]. rewrite !andb_true_iff in R. destruct R as [[R1 R2] R3].
  exists c, k, s'. cbv zeta. split; [apply V_reach; exact st_loc_reachable|]. split; [apply calm_ok; vm_compute; reflexivity|]. split; [exact C|]. split; [exact T|]. split; [apply the_channel_ok; auto|]. split; [apply local_hd; exact P2|]. split; [apply not_on_b; vm_compute; reflexivity|].
  split; [rewrite H, R1; reflexivity|]. split; [apply on_b_ok; exact R2|exact R3].
Qed.
Print Assumptions C29_njoin_refuted.
(** a service on hub has cloaked bob, and he leaves the channel *)
Notation st_cloak := (final conf0 [peer] (two_users ++ Sessions.link ++ [E_Time 2020 7; E_Data 7 (crlf ":hub.example.net MODE bob +x"); E_Time 2030 7])).
Lemma st_cloak_reachable : reachable st_cloak.
Proof. apply reach_final; [exact conf0_ok|vm_compute; reflexivity]. Qed.
Example C31_part_nonvacuous : exists c k v s', let bob := named "bob" st_cloak in let ch := cnamed "#Test" st_cloak in
  live st_cloak /\ undisturbed st_cloak /\ client_of st_cloak 6 bob c /\ cl_type c = T_USER /\ orders st_cloak (B "PART #test") "PART" [B "#test"] /\ nick_fits c /\ In "x"%char (cl_modes c) /\ cl_cloaked c = Some v /\ v <> cl_host c /\ the_channel st_cloak (B "#test") ch k /\ is_on st_cloak bob ch /\
  Parse_Request 6 (B "PART #test") st_cloak = Ok CONNECTED s' /\ existsb (fun p => Nat.eqb (fst p) 5 && beq (snd p) (line_with c v (part_text (ch_name k) []))) (s_out s') = true.
Proof.
  destruct (serves_ok st_cloak 6 (named "bob" st_cloak) (fun c => type_b T_USER c && memb "x" (cl_modes c) && negb (beq (cl_id c) []) && Nat.ltb (List.length (cl_id c)) 32 && match cl_cloaked c with Some v => negb (beq v (cl_host c)) &&
      chas st_cloak (cnamed "#Test" st_cloak) (fun k => the_channel_b st_cloak (B "#test") (cnamed "#Test" st_cloak) k && doing (Parse_Request 6 (B "PART #test")) st_cloak (fun b s => b && existsb (fun p => Nat.eqb (fst p) 5 && beq (snd p) (line_with c v (part_text (ch_name k) []))) (s_out s))) | None => false end)) as (c & C & T); [vm_compute; reflexivity|].
  rewrite !andb_true_iff, negb_true_iff in T. destruct T as [[[[T1 T2] T3] T4] T5]. apply type_b_ok in T1. destruct (cl_cloaked c) as [v|] eqn:CV; [|discriminate T5]. rewrite andb_true_iff, negb_true_iff in T5. destruct T5 as [T5 T6]. apply chas_ok in T6. destruct T6 as (k & K & T6). apply andb_true_iff in T6. destruct T6 as [T6 T7].
  apply doing_ok in T7. destruct T7 as (b & s' & H & R). apply andb_true_iff in R. destruct R as [R1 R2].
  exists c, k, v, s'. cbv zeta. split; [apply V_reach; exact st_cloak_reachable|]. split; [apply calm_ok; vm_compute; reflexivity|]. split; [exact C|]. split; [exact T1|]. split; [apply orders_b; vm_compute; reflexivity|].
  split; [split; [intro X; rewrite X in T3; discriminate T3|apply Nat.ltb_lt; exact T4]|]. split; [apply Bytes.memb_In; exact T2|]. split; [exact CV|]. split; [intros ->; rewrite (proj2 (beq_eq _ _) eq_refl) in T5; discriminate T5|]. split; [apply the_channel_ok; auto|]. split; [apply on_b_ok; vm_compute; reflexivity|].
  split; [rewrite H, R1; reflexivity|exact R2].
Qed.
