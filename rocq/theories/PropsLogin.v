(** Property theorems about registration and the capability negotiation. *)
From Coq Require Import List Ascii String ZArith NArith Bool Lia Arith.
From Verif Require Import Bytes Lists ParseReq MatchSpec State Monad Core Write Info Chan Mode Msg Login Oper Server Dispatch Conn Live Spec Observ HandLine HandGain HandLogin Output HandDo HandCap Sessions.
Import ListNotations.

(** ** C24 *)
(** One line of a client that is not a server: every client keeps its state of registration, or it is the
    sender that takes a step of the registration by a PASS, NICK, USER, PONG or CAP END command, and if it
    becomes a user, it has a right to: [registered_properly].  (The third case is a SERVER command after
    PASS: the sender wants to be a server.) *)
Theorem C24_line : forall s i h c text b s', live s -> undisturbed s' -> client_of s i h c -> plain_type (cl_type c) -> Parse_Request i text s = Ok b s' ->
  forall j d d', lookup j (s_heap s) = Some d -> lookup j (s_heap s') = Some d' ->
  cl_type d' = cl_type d \/
  (j = h /\ reg_step s i text (cl_type d) (cl_type d') /\ (cl_type d' = T_USER -> registered_properly s' i d')) \/
  ((cl_type c = T_GOTPASS \/ cl_type c = T_GOTPASS_2813) /\ (exists args, says text "SERVER" args) /\ (cl_type d' = T_UNKNOWNSERVER \/ cl_type d' = T_SERVER)).
Proof. exact login_line. Qed.
Print Assumptions C24_line.
(** Any event: if a client becomes a user then, a line executed then is responsible: one of a linked
    server, or a line of this client that is the last step of a complete registration. *)
Theorem C24_event : forall e s s' h, live s -> undisturbed s' -> (exists c, lookup h (s_heap s) = Some c) -> step e s = Ok tt s' -> ~ isu s h -> isu s' h ->
  exists i h' c text b s1 s2, live s1 /\ actions s s1 /\ client_of s1 i h' c /\ Parse_Request i text s1 = Ok b s2 /\ actions s2 s' /\
    (~ plain_type (cl_type c) \/ (h' = h /\ exists d, lookup h (s_heap s2) = Some d /\ cl_type d = T_USER /\ reg_step s1 i text (cl_type c) T_USER /\ registered_properly s2 i d)).
Proof. exact login_event. Qed.
Print Assumptions C24_event.
(** eve sends USER and becomes a user; with a wrong server password she does not *)
Lemma plain_b : forall t, negb (ctype_eqb t T_SERVER) && negb (ctype_eqb t T_UNKNOWNSERVER) && negb (ctype_eqb t T_SERVICE) = true -> plain_type t.
Proof. intros t H. unfold plain_type. destruct t; cbn in H; try discriminate H; repeat split; discriminate. Qed.
Definition isu_b (s : state) (h : handle) : bool := match lookup h (s_heap s) with Some c => ctype_eqb (cl_type c) T_USER | None => false end.
Lemma isu_b_ok : forall s h, isu_b s h = true -> isu s h.
Proof. intros s h H. unfold isu_b in H. destruct (lookup h (s_heap s)) as [c|] eqn:E; [|discriminate]. apply type_b_ok in H. exists c. auto. Qed.
Example C24_nonvacuous : exists h c s', live st_nick /\ undisturbed s' /\ client_of st_nick 8 h c /\ cl_type c = T_GOTNICK /\ Parse_Request 8 (B "USER eve 0 * :Eve") st_nick = Ok CONNECTED s' /\ ~ isu st_nick h /\ isu s' h.
Proof.
  destruct (serves_ok st_nick 8 (named "eve" st_nick) (type_b T_GOTNICK)) as (c & C & T); [vm_compute; reflexivity|]. apply type_b_ok in T.
  destruct (doing_ok _ (Parse_Request 8 (B "USER eve 0 * :Eve")) st_nick (fun b s => b && calm s && isu_b s (named "eve" st_nick))) as (b & s' & H & R); [vm_compute; reflexivity|].
  rewrite !andb_true_iff in R. destruct R as [[R1 R2] R3].
  exists (named "eve" st_nick), c, s'. split; [apply V_reach; exact st_nick_reachable|]. split; [apply calm_ok; exact R2|]. split; [exact C|]. split; [exact T|]. split; [rewrite H, R1; reflexivity|]. split; [|apply isu_b_ok; exact R3].
  intros (d & D1 & D2). destruct C as [_ C]. rewrite C in D1. injection D1 as <-. congruence.
Qed.

(** ** C43 *)
(** One line of any client: no capability of any client changes, nor whether it is negotiating, unless it
    is a CAP command of this client; then [cap_effect] says what changes.  REQ is all or nothing. *)
Theorem C43_line : forall s i h c text b s', live s -> client_of s i h c -> Parse_Request i text s = Ok b s' ->
  forall j d d', lookup j (s_heap s) = Some d -> lookup j (s_heap s') = Some d' ->
  (cl_cap_pending d' = cl_cap_pending d /\ cl_cap_multi d' = cl_cap_multi d) \/ (j = h /\ exists args, says text "CAP" args /\ cap_effect args d d').
Proof. exact cap_line. Qed.
Print Assumptions C43_line.
(** Any event: a negotiation ends only by a CAP END command of this client.  (With [C24_event] and
    [rp_cap]: no client becomes a user while it is negotiating.) *)
Theorem C43_event : forall e s s' h, live s -> undisturbed s' -> step e s = Ok tt s' -> negotiating s h -> settled_cap s' h ->
  exists i c text b s1 s2 w, live s1 /\ actions s s1 /\ client_of s1 i h c /\ Parse_Request i text s1 = Ok b s2 /\ actions s2 s' /\
    says text "CAP" [w] /\ same_name w (B "END") /\ cl_type c <> T_USER /\ negotiating s1 h.
Proof. exact cap_event. Qed.
Print Assumptions C43_event.
(** CAP REQ is answered: with ACK, and then everything that was asked for is done, or with NAK, and then
    nothing is done; the answer is the only line that is written.  (This server itself has no user mode
    'x'; only a linked server can set it.) *)
Theorem C43_reply : forall s i h c w a text b s' me, live s -> undisturbed s -> client_of s i h c -> cl_type c <> T_SERVER -> lookup This_Server (s_heap s) = Some me -> ~ In "x"%char (cl_modes me) ->
  orders s text "CAP" [w; a] -> same_name w (B "REQ") -> Parse_Request i text s = Ok b s' -> is_open s i = true ->
  exists c', lookup h (s_heap s') = Some c' /\
    let reply (verb : string) := on_wire (":"%char :: cl_id me ++ B " CAP " ++ id_of c ++ B verb ++ a) in
    (Forall known_cap (words (firstn 512 a)) -> wanted (cl_cap_multi c) (words (firstn 512 a)) (cl_cap_multi c') /\ forall j, written s s' j (if (i =? j)%nat then [reply " ACK :"%string] else [])) /\
    (~ Forall known_cap (words (firstn 512 a)) -> cl_cap_multi c' = cl_cap_multi c /\ forall j, written s s' j (if (i =? j)%nat then [reply " NAK :"%string] else [])).
Proof. exact cap_req. Qed.
Print Assumptions C43_reply.
Notation st_cap := (final conf0 [peer] (two_users ++ [E_Accept 8 (B "1.2.3.8") false; E_Resolved 8 []; E_Data 8 (lines ["CAP LS"; "NICK eve"; "USER eve 0 * :Eve"]%string)])).
Lemma st_cap_reachable : reachable st_cap.
Proof. apply reach_final; [exact conf0_ok|vm_compute; reflexivity]. Qed.
Definition capped_b (p m : bool) (s : state) (h : handle) : bool := match lookup h (s_heap s) with Some c => Bool.eqb (cl_cap_pending c) p && Bool.eqb (cl_cap_multi c) m | None => false end.
Lemma negotiating_ok : forall m s h, capped_b true m s h = true -> negotiating s h.
Proof. intros m s h H. unfold capped_b in H. destruct (lookup h (s_heap s)) as [c|] eqn:E; [|discriminate]. apply andb_true_iff in H. destruct H as [H _]. apply eqb_prop in H. exists c. auto. Qed.
Lemma settled_cap_ok : forall m s h, capped_b false m s h = true -> settled_cap s h.
Proof. intros m s h H. unfold capped_b in H. destruct (lookup h (s_heap s)) as [c|] eqn:E; [|discriminate]. apply andb_true_iff in H. destruct H as [H _]. apply eqb_prop in H. exists c. auto. Qed.
Lemma orders_b : forall s text cmd args, match parse_line (trim text) with Some (mkReq None name a) => caseeq name (B cmd) && match list_eq_dec (list_eq_dec ascii_dec) a args with left _ => true | right _ => false end | _ => false end && negb (cf_scrubctcp (s_conf s)) = true -> orders s text cmd args.
Proof.
  intros s text cmd args H. apply andb_true_iff in H. destruct H as [H S]. destruct (parse_line (trim text)) as [[[p|] name a]|] eqn:E; try discriminate H. apply andb_true_iff in H. destruct H as [H1 H2].
  destruct (list_eq_dec (list_eq_dec ascii_dec) a args) as [-> |]; [|discriminate H2]. split; [exists name; split; [exact E|apply same_iff; exact H1]|]. intro Q. rewrite Q in S. discriminate S.
Qed.
Example C43_nonvacuous : exists h s1 s2, live st_cap /\ undisturbed s2 /\ negotiating st_cap h /\ ~ isu st_cap h /\
  step (E_Data 8 (lines ["CAP REQ :multi-prefix"]%string)) st_cap = Ok tt s1 /\ negotiating s1 h /\ ~ isu s1 h /\ capped_b true true s1 h = true /\ step (E_Data 8 (lines ["CAP END"]%string)) s1 = Ok tt s2 /\ settled_cap s2 h /\ isu s2 h.
Proof.
  assert (K : doing (Monad.bind (step (E_Data 8 (lines ["CAP REQ :multi-prefix"]%string))) (fun _ => step (E_Data 8 (lines ["CAP END"]%string)))) st_cap (fun _ s => calm s && capped_b false true s (named "eve" st_cap) && isu_b s (named "eve" st_cap)) = true) by (vm_compute; reflexivity).
  destruct (doing_ok _ (step (E_Data 8 (lines ["CAP REQ :multi-prefix"]%string))) st_cap (fun _ s => capped_b true true s (named "eve" st_cap) && negb (isu_b s (named "eve" st_cap)))) as (u & s1 & E1 & R1); [vm_compute; reflexivity|].
  unfold doing, Monad.bind in K. rewrite E1 in K. destruct (step (E_Data 8 (lines ["CAP END"]%string)) s1) as [u2 s2|] eqn:E2; [|discriminate K]. destruct u, u2. cbv beta iota in K, R1. rewrite !andb_true_iff in K. rewrite andb_true_iff in R1. destruct K as [[K1 K2] K3]. destruct R1 as [R1 R2].
  assert (N : forall s h, negb (isu_b s h) = true -> ~ isu s h). { intros s h Q (c & Q1 & Q2). unfold isu_b in Q. rewrite Q1, Q2 in Q. discriminate Q. }
  exists (named "eve" st_cap), s1, s2. split; [apply V_reach; exact st_cap_reachable|]. split; [apply calm_ok; exact K1|]. split; [apply (negotiating_ok false); vm_compute; reflexivity|]. split; [apply N; vm_compute; reflexivity|].
  split; [exact E1|]. split; [apply (negotiating_ok true); exact R1|]. split; [apply N; exact R2|]. split; [exact R1|]. split; [exact E2|]. split; [apply (settled_cap_ok true); exact K2|apply isu_b_ok; exact K3].
Qed.
(** the hypotheses of [C43_reply] hold for eve; an unknown capability is refused *)
Example C43_reply_nonvacuous : exists h c me s', live st_cap /\ undisturbed st_cap /\ client_of st_cap 8 h c /\ cl_type c <> T_SERVER /\ lookup This_Server (s_heap st_cap) = Some me /\ ~ In "x"%char (cl_modes me) /\
  orders st_cap (B "CAP REQ :multi-prefix foo") "CAP" [B "REQ"; B "multi-prefix foo"] /\ is_open st_cap 8 = true /\ Parse_Request 8 (B "CAP REQ :multi-prefix foo") st_cap = Ok CONNECTED s' /\
  sends 8 ":irc.example.net CAP eve NAK :multi-prefix foo" s' = true.
Proof.
  destruct (serves_ok st_cap 8 (named "eve" st_cap) (type_b T_WAITCAPEND)) as (c & C & T); [vm_compute; reflexivity|]. apply type_b_ok in T.
  destruct (has_ok st_cap This_Server (fun m => negb (memb "x" (cl_modes m)))) as (me & M1 & M2); [vm_compute; reflexivity|]. apply negb_true_iff in M2.
  destruct (doing_ok _ (Parse_Request 8 (B "CAP REQ :multi-prefix foo")) st_cap (fun b s => b && sends 8 ":irc.example.net CAP eve NAK :multi-prefix foo" s)) as (b & s' & H & R); [vm_compute; reflexivity|]. apply andb_true_iff in R. destruct R as [R1 R2].
  exists (named "eve" st_cap), c, me, s'. split; [apply V_reach; exact st_cap_reachable|]. split; [apply calm_ok; vm_compute; reflexivity|]. split; [exact C|]. split; [congruence|]. split; [destruct M1; assumption|]. split; [apply not_In_b; exact M2|].
  split; [apply orders_b; vm_compute; reflexivity|]. split; [vm_compute; reflexivity|]. split; [rewrite H, R1; reflexivity|exact R2].
Qed.
