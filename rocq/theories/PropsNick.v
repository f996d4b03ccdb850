(** Property theorems about what others are told when a user changes its name or leaves (C28, C31). *)
From Coq Require Import List Ascii String ZArith NArith Bool Lia Arith.
From Verif Require Import Bytes Match Lists ParseReq State Monad Core Write Info Chan Mode Msg Login Oper Server Dispatch Conn WF RelCmd Tree Live Observ HandLine Output HandDo HandSend HandCast HandNick Sessions PropsUser PropsLogin PropsSend PropsMore PropsLink Spec SpecLink SpecNick.
Import ListNotations.

(** ** C28 *)
(** A NICK which takes effect (the user [u] has another name afterwards), given by the user himself or by the server
    he is behind: every linked server except the source is told exactly once; every user of this server who shares a
    channel with him is told exactly once, no matter how many channels they share; he himself is told, if he is a
    user of this server; nobody else is told anything. *)
Theorem C28_nick_partial : forall s i h c text new u d b s', live s -> undisturbed s -> client_of s i h c -> acts s h c text "NICK" [new] u d -> nick_fits d -> settled d ->
  Parse_Request i text s = Ok b s' -> (exists d', lookup u (s_heap s') = Some d' /\ cl_id d' <> cl_id d) ->
  (exists d', lookup u (s_heap s') = Some d' /\ cl_id d' = new) /\ to_servers s s' i d (nick_text new) /\ to_near s s' u d (nick_text new) /\
  (cl_type c = T_USER -> is_open s i = true -> written s s' i [line_from s d c (nick_text new)]) /\
  (forall j, is_open s j = true -> (forall x, ~ link s j x) -> (forall x, ~ near s u j x) -> i <> j -> written s s' j []).
Proof. exact nick_link. Qed.
Print Assumptions C28_nick_partial.
(** A QUIT of a user (given by himself, or for him by the server he is behind): he is gone, and every linked server
    except the source is told exactly once; every user of this server who shares a channel with him is told exactly
    once; nobody else is told anything.  (Of a QUIT of a user of this server, those with mode "c" are also told by a
    notice: they are left out here.) *)
Theorem C28_quit_partial : forall s i h c text args u d b s', live s -> undisturbed s -> client_of s i h c -> acts s h c text "QUIT" args u d -> nick_fits d -> settled d -> server_settled s ->
  List.length args <= 1 -> Forall (fun t => List.length t < 500) args -> Parse_Request i text s = Ok b s' ->
  lookup u (s_heap s') = None /\ (cl_type c = T_USER -> is_open s' i = false) /\ (cl_type c = T_SERVER -> is_open s i = true -> written s s' i []) /\
  forall j, i <> j -> is_open s j = true -> (cl_type c = T_USER -> ~ watches s j) ->
  (forall x, link s j x -> written s s' j [relayed d (quit_text (to_peers (farewell c args)))]) /\
  (forall x, near s u j x -> written s s' j [line_from s d x (quit_text (to_users s d (farewell c args)))]) /\
  ((forall x, ~ link s j x) -> (forall x, ~ near s u j x) -> written s s' j []).
Proof. exact quit_link. Qed.
Print Assumptions C28_quit_partial.

(** ** C31 *)
(** What the others see when a cloaked user changes its name or leaves: the cloaked host name *)
Theorem C31_nick_partial : forall s i h c text new u d b s' v, live s -> undisturbed s -> client_of s i h c -> acts s h c text "NICK" [new] u d -> nick_fits d -> In "x"%char (cl_modes d) -> cl_cloaked d = Some v ->
  Parse_Request i text s = Ok b s' -> (exists d', lookup u (s_heap s') = Some d' /\ cl_id d' <> cl_id d) ->
  forall j x, near s u j x -> is_open s j = true -> written s s' j [line_with d v (nick_text new)].
Proof.
  intros s i h c text new u d b s' v L U C AC NF X CL H CH j x LO OP. destruct (nick_link s i h c text new u d b s' L U C AC NF ltac:(intros _ E; congruence) H CH) as (_ & _ & R & _).
  rewrite <- (cloaked_line s d x); [apply R; auto| |exact X|exact CL]. destruct LO as (g & ch & _ & _ & _ & _ & _ & T). exact T.
Qed.
Print Assumptions C31_nick_partial.
Theorem C31_quit_partial : forall s i h c text args u d b s' v, live s -> undisturbed s -> client_of s i h c -> acts s h c text "QUIT" args u d -> nick_fits d -> In "x"%char (cl_modes d) -> cl_cloaked d = Some v -> server_settled s ->
  List.length args <= 1 -> Forall (fun t => List.length t < 500) args -> Parse_Request i text s = Ok b s' ->
  forall j x, near s u j x -> i <> j -> is_open s j = true -> ~ watches s j -> written s s' j [line_with d v (quit_text (to_users s d (farewell c args)))].
Proof.
  intros s i h c text args u d b s' v L U C AC NF X CL SS LA FA H j x LO NE OP NW. destruct (quit_link s i h c text args u d b s' L U C AC NF ltac:(intros _ E; congruence) SS LA FA H) as (_ & _ & _ & R).
  rewrite <- (cloaked_line s d x); [apply (R j NE OP (fun _ => NW)); exact LO| |exact X|exact CL]. destruct LO as (g & ch & _ & _ & _ & _ & _ & T). exact T.
Qed.
Print Assumptions C31_quit_partial.

(** ** examples *)
Definition more (j : connid) (n : nat) (s s' : state) : bool := Nat.eqb (to_conn j (s_out s')) (n + to_conn j (s_out s)).
Definition near_b (s : state) (u g : handle) (ch : chandle) (j : connid) : bool := negb (Nat.eqb g u) && on_b u ch s && on_b g ch s && has s g (fun x => type_b T_USER x && match cl_conn x with Some k => Nat.eqb k j | None => false end).
Lemma near_ok : forall s u g ch j, near_b s u g ch j = true -> exists x, near s u j x.
Proof.
  intros s u g ch j H. unfold near_b in H. rewrite !andb_true_iff, negb_true_iff in H. destruct H as [[[H1 H2] H3] H4]. apply has_ok in H4. destruct H4 as (x & [_ K] & H4). apply andb_true_iff in H4. destruct H4 as [H4 H5]. apply type_b_ok in H4. exists x, g, ch. apply Nat.eqb_neq in H1. split; auto.
  split; [apply on_b_ok; exact H2|]. split; [apply on_b_ok; exact H3|]. split; auto. destruct (cl_conn x) as [k|]; [|discriminate H5]. apply Nat.eqb_eq in H5. subst k. split; auto. congruence.
Qed.
Definition watch_b (s : state) (j : connid) : bool := forallb (fun p => negb (memb "c" (cl_modes (snd p))) || match cl_conn (snd p) with Some k => negb (Nat.eqb k j) | None => true end) (s_heap s).
Lemma watch_ok : forall s j, watch_b s j = true -> ~ watches s j.
Proof.
  intros s j H (g & x & K & K2 & K3). rewrite lookup_assoc in K. apply assoc_In in K. unfold watch_b in H. rewrite forallb_forall in H. specialize (H _ K). cbn [snd] in H. apply Bytes.memb_In in K3. rewrite K3, K2, Nat.eqb_refl in H. discriminate H.
Qed.
Definition settled_b (s : state) : bool := has s This_Server (fun c => negb (memb "x" (cl_modes c))).
Lemma settled_ok : forall s, settled_b s = true -> server_settled s.
Proof. intros s H me K. apply has_ok in H. destruct H as (c & [_ K2] & H). rewrite K in K2. injection K2 as <-. apply negb_true_iff in H. intro X. destruct (not_In_b _ _ H X). Qed.
(** alice, who shares two channels with bob, changes her name *)
Example C28_nick_nonvacuous : exists c d' s', let alice := named "alice" st_loc in
  live st_loc /\ undisturbed st_loc /\ client_of st_loc 5 alice c /\ acts st_loc alice c (B "NICK ann") "NICK" [B "ann"] alice c /\ nick_fits c /\ settled c /\
  Parse_Request 5 (B "NICK ann") st_loc = Ok CONNECTED s' /\ lookup alice (s_heap s') = Some d' /\ cl_id d' = B "ann" /\ cl_id d' <> cl_id c /\
  (exists x, near st_loc alice 6 x) /\ (exists x, link st_loc 7 x) /\ (exists x, link st_loc 8 x) /\
  sends 7 ":alice NICK :ann" s' = true /\ sends 8 ":alice NICK :ann" s' = true /\ sends 6 ":alice!~alice@1.2.3.4 NICK :ann" s' = true /\ more 6 1 st_loc s' = true.
Proof.
  destruct (serves_ok st_loc 5 (named "alice" st_loc) (fun c => plain_user c && beq (cl_id c) (B "alice"))) as (c & C & T); [vm_compute; reflexivity|]. apply andb_true_iff in T. destruct T as [T TA]. apply plain_user_ok in T. destruct T as (T & T2 & T3). apply beq_eq in TA.
  destruct (doing_ok _ (Parse_Request 5 (B "NICK ann")) st_loc (fun b s => b && has s (named "alice" st_loc) (fun x => beq (cl_id x) (B "ann")) && sends 7 ":alice NICK :ann" s && sends 8 ":alice NICK :ann" s && sends 6 ":alice!~alice@1.2.3.4 NICK :ann" s && more 6 1 st_loc s)) as (b & s' & H & R); [vm_compute; reflexivity|].
  rewrite !andb_true_iff in R. destruct R as [[[[[R1 R2] R3] R4] R5] R6]. apply has_ok in R2. destruct R2 as (d' & [_ D] & E). apply beq_eq in E.
  exists c, d', s'. cbv zeta. split; [apply V_reach; exact st_loc_reachable|]. split; [apply calm_ok; vm_compute; reflexivity|]. split; [exact C|]. split; [left; split; [exact T|]; split; [apply orders_b; vm_compute; reflexivity|auto]|]. split; [exact T3|]. split; [exact T2|].
  split; [rewrite H, R1; reflexivity|]. split; [exact D|]. split; [exact E|]. split; [rewrite E, TA; discriminate|]. split; [apply (near_ok _ _ (named "bob" st_loc) (cnamed "#Test" st_loc)); vm_compute; reflexivity|].
  split; [apply (link_is_ok _ _ (named "hub.example.net" st_loc)); vm_compute; reflexivity|]. split; [apply (link_is_ok _ _ (named "other.example.net" st_loc)); vm_compute; reflexivity|]. auto.
Qed.
(** bob leaves *)
Example C28_quit_nonvacuous : exists c s', let bob := named "bob" st_loc in
  live st_loc /\ undisturbed st_loc /\ client_of st_loc 6 bob c /\ acts st_loc bob c (B "QUIT :bye") "QUIT" [B "bye"] bob c /\ nick_fits c /\ settled c /\ server_settled st_loc /\
  Parse_Request 6 (B "QUIT :bye") st_loc = Ok DISCONNECTED s' /\ (exists x, near st_loc bob 5 x) /\ (exists x, link st_loc 7 x) /\ ~ watches st_loc 5 /\ ~ watches st_loc 7 /\
  sends 7 ":bob QUIT :""bye""" s' = true /\ sends 8 ":bob QUIT :""bye""" s' = true /\ more 5 1 st_loc s' = true /\ more 7 1 st_loc s' = true.
Proof.
  destruct (serves_ok st_loc 6 (named "bob" st_loc) plain_user) as (c & C & T); [vm_compute; reflexivity|]. apply plain_user_ok in T. destruct T as (T & T2 & T3).
  destruct (doing_ok _ (Parse_Request 6 (B "QUIT :bye")) st_loc (fun b s => negb b && sends 7 ":bob QUIT :""bye""" s && sends 8 ":bob QUIT :""bye""" s && more 5 1 st_loc s && more 7 1 st_loc s)) as (b & s' & H & R); [vm_compute; reflexivity|].
  rewrite !andb_true_iff, negb_true_iff in R. destruct R as [[[[R1 R2] R3] R4] R5].
  exists c, s'. cbv zeta. split; [apply V_reach; exact st_loc_reachable|]. split; [apply calm_ok; vm_compute; reflexivity|]. split; [exact C|]. split; [left; split; [exact T|]; split; [apply orders_b; vm_compute; reflexivity|auto]|]. split; [exact T3|]. split; [exact T2|]. split; [apply settled_ok; vm_compute; reflexivity|].
  split; [rewrite H, R1; reflexivity|]. split; [apply (near_ok _ _ (named "alice" st_loc) (cnamed "#Test" st_loc)); vm_compute; reflexivity|]. split; [apply (link_is_ok _ _ (named "hub.example.net" st_loc)); vm_compute; reflexivity|].
  split; [apply watch_ok; vm_compute; reflexivity|]. split; [apply watch_ok; vm_compute; reflexivity|]. auto.
Qed.
(** carol, behind the server on connection 7, leaves: the server she is behind is told nothing *)
Example C28_quit_remote_nonvacuous : exists c d s', let hub := named "hub.example.net" st_loc in let carol := named "carol" st_loc in
  client_of st_loc 7 hub c /\ acts st_loc hub c (B ":carol QUIT :bye") "QUIT" [B "bye"] carol d /\ nick_fits d /\ settled d /\
  Parse_Request 7 (B ":carol QUIT :bye") st_loc = Ok CONNECTED s' /\ (exists x, near st_loc carol 5 x) /\
  sends 8 ":carol QUIT :bye" s' = true /\ sends 5 ":carol!carol@host.example.org QUIT :bye" s' = true /\ more 7 0 st_loc s' = true.
Proof.
  destruct (serves_ok st_loc 7 (named "hub.example.net" st_loc) (type_b T_SERVER)) as (c & C & T); [vm_compute; reflexivity|].
  destruct (has_ok st_loc (named "carol" st_loc) plain_user) as (d & D1 & D2); [vm_compute; reflexivity|]. apply plain_user_ok in D2. destruct D2 as (D2 & D3 & D4).
  destruct (doing_ok _ (Parse_Request 7 (B ":carol QUIT :bye")) st_loc (fun b s => b && sends 8 ":carol QUIT :bye" s && sends 5 ":carol!carol@host.example.org QUIT :bye" s && more 7 0 st_loc s)) as (b & s' & H & R); [vm_compute; reflexivity|].
  rewrite !andb_true_iff in R. destruct R as [[[R1 R2] R3] R4].
  exists c, d, s'. cbv zeta. split; [exact C|]. split; [apply acts_ok; [apply C|exact D1|vm_compute; reflexivity]|]. split; [exact D4|]. split; [exact D3|].
  split; [rewrite H, R1; reflexivity|]. split; [apply (near_ok _ _ (named "alice" st_loc) (cnamed "#Test" st_loc)); vm_compute; reflexivity|]. auto.
Qed.
