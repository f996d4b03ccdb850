(** Property theorems about the connections (C07, C36-C38): which lines are executed, penalties, limits,
    timeouts.  [step e] is the reaction of the server to an event, [Handle_Buffer i] one pass over the
    read buffer of connection [i]. *)
From Coq Require Import List Ascii String ZArith NArith Bool Lia Arith.
From Verif Require Import Bytes Lists ParseReq State Monad Core Write Info Chan Mode Msg Login Oper Server Dispatch Conn Live WF Spec Observ HandRead HandTime Sessions.
Import ListNotations.
Local Open Scope list_scope.

(** ** C07 *)
(** While a connection stays connected, the lines executed for it followed by the lines that still wait
    in its read buffer are exactly the lines of the byte stream received, however it was cut into
    pieces and whatever happened between the pieces.  Partial: [ok = true], i.e. [Parse_Request] has not
    reported this connection as closed while it was not; NUL bytes stop the framing. *)
Theorem C07_lines_of_the_stream_partial : forall i inp s s' cn, reachable s -> serving i inp s s' -> assoc i (s_conns s) = Some cn ->
  exists ls ok cn', dialogue i inp ls ok s s' /\ assoc i (s_conns s') = Some cn' /\
  (ok = true -> ~ In NUL (co_rbuf cn ++ inp) -> lines_of (co_rbuf cn ++ inp) = ls ++ lines_of (co_rbuf cn')).
Proof. exact stream_lines. Qed.
Print Assumptions C07_lines_of_the_stream_partial.
(** Two ways to deliver the same stream lead to the same lines, once all complete lines are executed. *)
Theorem C07_segmentation_partial : forall i inp s1 s1' s2 s2' c1 c2, reachable s1 -> reachable s2 -> serving i inp s1 s1' -> serving i inp s2 s2' ->
  assoc i (s_conns s1) = Some c1 -> assoc i (s_conns s2) = Some c2 -> co_rbuf c1 = co_rbuf c2 -> ~ In NUL (co_rbuf c1 ++ inp) ->
  exists ls1 ok1 ls2 ok2, dialogue i inp ls1 ok1 s1 s1' /\ dialogue i inp ls2 ok2 s2 s2' /\
  (ok1 = true -> ok2 = true ->
   (forall c, assoc i (s_conns s1') = Some c -> lines_of (co_rbuf c) = []) -> (forall c, assoc i (s_conns s2') = Some c -> lines_of (co_rbuf c) = []) -> ls1 = ls2).
Proof. exact stream_segments. Qed.
Print Assumptions C07_segmentation_partial.
(** Nothing waits for ever: one pass over the buffer executes the first line that may be executed, and
    so does the arrival of data. *)
Theorem C07_first_line_is_executed : forall i s n s' l, live s -> Handle_Buffer i s = Ok n s' -> waiting i [] l s -> exists q ok, traced i (l :: q) ok s s'.
Proof. exact first_line. Qed.
Print Assumptions C07_first_line_is_executed.
Theorem C07_data_is_executed : forall i data s s' cn l, live s -> assoc i (s_conns s) = Some cn -> can_read (s_now s) cn = true -> List.length data <= READBUFFER_LEN -> data <> [] ->
  step (E_Data i data) s = Ok tt s' -> waiting i data l s -> exists q ok, traced i (l :: q) ok s s'.
Proof. exact first_read. Qed.
Print Assumptions C07_data_is_executed.
(** the same line delivered in one and in three pieces *)
Definition whole : list event := [E_Data 5 (crlf "PRIVMSG bob :hi")].
Definition pieces : list event := [E_Data 5 (B "PRIVM"); E_Data 6 (crlf "PING x"); E_Data 5 (B "SG bob :hi" ++ [CR]); E_Data 5 [LF]; E_Loop].
Notation hi_bob := ":alice!~alice@1.2.3.4 PRIVMSG bob :hi"%string.
Definition all_done (b : bytes) (s : state) : bool :=
  beq b (crlf "PRIVMSG bob :hi") && conn_b 5 (fun c => match co_rbuf c with [] => true | _ => false end) s && sends 6 hi_bob s.
Lemma all_done_ok : forall es, served 5 es st_link all_done = true -> exists s' c', serving 5 (crlf "PRIVMSG bob :hi") st_link s' /\
  assoc 5 (s_conns s') = Some c' /\ lines_of (co_rbuf c') = [] /\ sends 6 hi_bob s' = true.
Proof.
  intros es H. apply served_ok in H. destruct H as (b & s' & S & K). unfold all_done in K. rewrite !andb_true_iff in K. destruct K as [[K1 K2] K3].
  apply beq_eq in K1. subst b. apply conn_b_ok in K2. destruct K2 as (c' & K2 & K4). apply nil_b in K4. exists s', c'. split; [exact S|]. split; [exact K2|]. split; [rewrite K4; reflexivity|exact K3].
Qed.
Example C07_nonvacuous : exists c, reachable st_link /\ assoc 5 (s_conns st_link) = Some c /\ co_rbuf c = [] /\ lines_of (crlf "PRIVMSG bob :hi") = [B "PRIVMSG bob :hi"] /\
  (exists s1 c1, serving 5 (crlf "PRIVMSG bob :hi") st_link s1 /\ assoc 5 (s_conns s1) = Some c1 /\ lines_of (co_rbuf c1) = [] /\ sends 6 hi_bob s1 = true) /\
  (exists s2 c2, serving 5 (crlf "PRIVMSG bob :hi") st_link s2 /\ assoc 5 (s_conns s2) = Some c2 /\ lines_of (co_rbuf c2) = [] /\ sends 6 hi_bob s2 = true).
Proof.
  destruct (conn_b_ok 5 (fun c => match co_rbuf c with [] => true | _ => false end) st_link) as (c & K1 & K2); [vm_compute; reflexivity|]. apply nil_b in K2.
  exists c. split; [exact st_link_reachable|]. split; [exact K1|]. split; [exact K2|]. split; [vm_compute; reflexivity|].
  split; [apply (all_done_ok whole); vm_compute; reflexivity|apply (all_done_ok pieces); vm_compute; reflexivity].
Qed.

(** ** C36 *)
(** while a penalty time lies in the future no line of the connection is executed: its data is not
    read, its buffer is not looked at, and no event executes one of its lines *)
Theorem C36_not_read_while_blocked : forall i d s s' cn, assoc i (s_conns s) = Some cn -> (s_now s < co_delaytime cn)%Z -> step (E_Data i d) s = Ok tt s' -> s' = s.
Proof. exact blocked_data. Qed.
Print Assumptions C36_not_read_while_blocked.
Theorem C36_buffer_kept_while_blocked : forall i s n s' cn, assoc i (s_conns s) = Some cn -> (s_now s < co_delaytime cn)%Z -> Handle_Buffer i s = Ok n s' -> s' = s /\ n = 0%Z.
Proof. exact blocked_buffer. Qed.
Print Assumptions C36_buffer_kept_while_blocked.
Theorem C36_no_line_while_blocked : forall i e s s' cn, live s -> assoc i (s_conns s) = Some cn -> (s_now s < co_delaytime cn)%Z -> step e s = Ok tt s' -> exists ok, executed i e [] ok s s'.
Proof. exact blocked_lines. Qed.
Print Assumptions C36_no_line_while_blocked.
(** nothing that happens makes the block of a connection end earlier *)
Theorem C36_penalties_only_grow : forall e i s s' cn cn', live s -> step e s = Ok tt s' -> assoc i (s_conns s) = Some cn -> assoc i (s_conns s') = Some cn' ->
  (co_delaytime cn <= co_delaytime cn')%Z.
Proof. exact delay_grows. Qed.
Print Assumptions C36_penalties_only_grow.
Theorem C36_amount : forall i secs s s' cn, assoc i (s_conns s) = Some cn -> Conn_SetPenalty i secs s = Ok tt s' ->
  exists cn', assoc i (s_conns s') = Some cn' /\
  co_delaytime cn' = (Z.max (co_delaytime cn) (s_now s) + (if (secs <? 10) && (0 <=? cf_maxpenalty (s_conf s)) then Z.min secs (cf_maxpenalty (s_conf s)) else secs))%Z.
Proof. exact penalty_set. Qed.
Print Assumptions C36_amount.
(** a wrong OPER password costs a penalty of 3 s: the next command has to wait *)
Notation st_pen := (final conf0 [peer] (two_users ++ link ++ [E_Data 5 (crlf "OPER root wrong")])).
Example C36_nonvacuous : exists cn, reachable st_pen /\ assoc 5 (s_conns st_pen) = Some cn /\ (s_now st_pen < co_delaytime cn)%Z /\ exists s', step E_Loop st_pen = Ok tt s'.
Proof.
  destruct (conn_b_ok 5 (fun c => (s_now st_pen <? co_delaytime c)%Z) st_pen) as (c & K1 & K2); [vm_compute; reflexivity|]. apply Z.ltb_lt in K2.
  destruct (doing_ok _ (step E_Loop) st_pen (fun _ _ => true)) as ([] & s' & H & _); [vm_compute; reflexivity|].
  exists c. split; [apply reach_final; [apply conf0_ok|vm_compute; reflexivity]|]. split; [exact K1|]. split; [exact K2|]. exists s'. exact H.
Qed.

(** ** C37 *)
Theorem C37_lines_at_once : forall i s n s', live s -> Handle_Buffer i s = Ok n s' ->
  exists m ls ok, traced i ls ok s s' /\ List.length ls <= m /\ Forall legal_line ls /\ (forall l, waiting i [] l s -> exists q, ls = l :: q) /\
  ((exists h c, client_of s i h c /\ cl_type c = T_SERVER) \/ line_limit s i m).
Proof. exact one_pass. Qed.
Print Assumptions C37_lines_at_once.
Theorem C37_lines_per_read : forall i data s s' cn, live s -> assoc i (s_conns s) = Some cn -> can_read (s_now s) cn = true -> List.length data <= READBUFFER_LEN -> data <> [] ->
  step (E_Data i data) s = Ok tt s' ->
  exists m ls ok, traced i ls ok s s' /\ List.length ls <= m /\ Forall legal_line ls /\ (forall l, waiting i data l s -> exists q, ls = l :: q) /\
  ((exists h c, client_of s i h c /\ cl_type c = T_SERVER) \/ line_limit s i m).
Proof. exact one_read. Qed.
Print Assumptions C37_lines_per_read.
(** five commands of alice at once: three are executed, two wait *)
Definition five : bytes := List.concat (map crlf ["PING a"; "PING b"; "PING c"; "PING d"; "PING e"]%string).
Example C37_nonvacuous : exists cn s', assoc 5 (s_conns st_link) = Some cn /\ can_read (s_now st_link) cn = true /\ List.length five <= READBUFFER_LEN /\ five <> [] /\
  step (E_Data 5 five) st_link = Ok tt s' /\ conn_b 5 (fun c => beq (co_rbuf c) (crlf "PING d" ++ crlf "PING e")) s' = true.
Proof.
  destruct (conn_b_ok 5 (can_read (s_now st_link)) st_link) as (c & K1 & K2); [vm_compute; reflexivity|].
  destruct (doing_ok _ (step (E_Data 5 five)) st_link (fun _ s' => conn_b 5 (fun c => beq (co_rbuf c) (crlf "PING d" ++ crlf "PING e")) s')) as ([] & s' & H & R); [vm_compute; reflexivity|].
  exists c, s'. split; [exact K1|]. split; [exact K2|]. split; [apply Nat.leb_le; vm_compute; reflexivity|]. split; [discriminate|]. split; [exact H|exact R].
Qed.

(** ** C38 *)
Theorem C38_timeouts : forall i s s' cn h c, live s -> client_of s i h c -> lookup i (s_conns s) = Some cn -> Check_Connection i s = Ok tt s' ->
  let t := s_now s in
  (registered (cl_type c) -> (co_lastdata cn < co_lastping cn)%Z -> (co_lastping cn < t - cf_pongtimeout (s_conf s))%Z -> lookup i (s_conns s') = None) /\
  (registered (cl_type c) -> (co_lastdata cn < co_lastping cn)%Z -> (t - cf_pongtimeout (s_conf s) <= co_lastping cn)%Z -> s' = s) /\
  (registered (cl_type c) -> (co_lastping cn <= co_lastdata cn)%Z -> (co_lastdata cn < t - cf_pingtimeout (s_conf s))%Z ->
     exists me name cn', lookup This_Server (s_heap s) = Some me /\ (name = cl_id me \/ (cl_id me = [] /\ name = B "*")) /\
       s_out s' = (i, wire (B "PING :" ++ name)) :: s_out s /\ lookup i (s_conns s') = Some cn' /\ co_lastping cn' = t /\ co_lastdata cn' = co_lastdata cn) /\
  (registered (cl_type c) -> (co_lastping cn <= co_lastdata cn)%Z -> (t - cf_pingtimeout (s_conf s) <= co_lastdata cn)%Z -> s' = s) /\
  (~ registered (cl_type c) -> (co_lastdata cn < t - cf_pongtimeout (s_conf s))%Z -> lookup i (s_conns s') = None) /\
  (~ registered (cl_type c) -> (t - cf_pongtimeout (s_conf s) <= co_lastdata cn)%Z -> s' = s).
Proof. exact check_spec. Qed.
Print Assumptions C38_timeouts.
(** the check of one connection leaves every other connection connected *)
Theorem C38_others_stay : forall i j s s' cn, live s -> i <> j -> assoc i (s_conns s) = Some cn -> Check_Connection j s = Ok tt s' ->
  exists cn', assoc i (s_conns s') = Some cn' /\ co_lastping cn' = co_lastping cn /\ co_lastdata cn' = co_lastdata cn.
Proof. exact check_others. Qed.
Print Assumptions C38_others_stay.
(** what counts as a sign of life: data from a registered client sets the time of the last data, and the
    loop checks every connection *)
Theorem C38_loop_checks : forall s s' i cn, Main_Loop s = Ok tt s' -> assoc i (s_conns s) = Some cn ->
  exists s1 s2 l1 l2, map fst (s_conns s) = l1 ++ i :: l2 /\ mfor l1 Check_Connection s = Ok tt s1 /\ Check_Connection i s1 = Ok tt s2.
Proof. exact loop_checks. Qed.
Print Assumptions C38_loop_checks.
(** alice is silent for more than PingTimeout (120 s) and is PINGed, and then for more than PongTimeout (20 s) *)
Notation st_quiet := (final conf0 [peer] (two_users ++ [E_Time 2200 0])).
Notation st_dead := (final conf0 [peer] (two_users ++ [E_Time 2200 0; E_Loop; E_Time 2300 0])).
Example C38_nonvacuous_ping : exists cn c, reachable st_quiet /\ client_of st_quiet 5 (named "alice" st_quiet) c /\ registered (cl_type c) /\ lookup 5 (s_conns st_quiet) = Some cn /\
  (co_lastping cn <= co_lastdata cn)%Z /\ (co_lastdata cn < s_now st_quiet - cf_pingtimeout (s_conf st_quiet))%Z /\ exists s', Check_Connection 5 st_quiet = Ok tt s' /\ sends 5 "PING :irc.example.net" s' = true.
Proof.
  destruct (conn_b_ok 5 (fun c => (co_lastping c <=? co_lastdata c)%Z && (co_lastdata c <? s_now st_quiet - cf_pingtimeout (s_conf st_quiet))%Z) st_quiet) as (cn & K1 & K2); [vm_compute; reflexivity|].
  apply andb_true_iff in K2. destruct K2 as [K2 K3]. apply Z.leb_le in K2. apply Z.ltb_lt in K3.
  destruct (serves_ok st_quiet 5 (named "alice" st_quiet) (type_b T_USER)) as (c & K & U); [vm_compute; reflexivity|]. apply type_b_ok in U.
  destruct (doing_ok _ (Check_Connection 5) st_quiet (fun _ s' => sends 5 "PING :irc.example.net" s')) as ([] & s' & H & R); [vm_compute; reflexivity|].
  exists cn, c. split; [apply reach_final; [apply conf0_ok|vm_compute; reflexivity]|]. split; [exact K|]. split; [left; exact U|]. split; [rewrite lookup_assoc; exact K1|]. split; [exact K2|]. split; [exact K3|]. exists s'. split; [exact H|exact R].
Qed.
Example C38_nonvacuous_close : exists cn c, reachable st_dead /\ client_of st_dead 5 (named "alice" st_dead) c /\ registered (cl_type c) /\ lookup 5 (s_conns st_dead) = Some cn /\
  (co_lastdata cn < co_lastping cn)%Z /\ (co_lastping cn < s_now st_dead - cf_pongtimeout (s_conf st_dead))%Z /\ exists s', Check_Connection 5 st_dead = Ok tt s'.
Proof.
  destruct (conn_b_ok 5 (fun c => (co_lastdata c <? co_lastping c)%Z && (co_lastping c <? s_now st_dead - cf_pongtimeout (s_conf st_dead))%Z) st_dead) as (cn & K1 & K2); [vm_compute; reflexivity|].
  apply andb_true_iff in K2. destruct K2 as [K2 K3]. apply Z.ltb_lt in K2. apply Z.ltb_lt in K3.
  destruct (serves_ok st_dead 5 (named "alice" st_dead) (type_b T_USER)) as (c & K & U); [vm_compute; reflexivity|]. apply type_b_ok in U.
  destruct (doing_ok _ (Check_Connection 5) st_dead (fun _ s' => true)) as ([] & s' & H & R); [vm_compute; reflexivity|].
  exists cn, c. split; [apply reach_final; [apply conf0_ok|vm_compute; reflexivity]|]. split; [exact K|]. split; [left; exact U|]. split; [rewrite lookup_assoc; exact K1|]. split; [exact K2|]. split; [exact K3|]. exists s'. exact H.
Qed.
