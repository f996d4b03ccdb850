(** Property theorems about single commands (C21-C23).  [Handle_Request i req] executes the command
    [req] for the client on connection [i]; [Parse_Request i text] does this for a received line.
    Where a theorem speaks about a [live] state (Conn.v), this is every state in which the server can
    execute a line; theorems without this hypothesis hold in every state whatsoever. *)
From Coq Require Import List Ascii String ZArith NArith Bool Lia Arith.
From Verif Require Import Bytes Lists ParseReq State Monad Core Write Info Chan Mode Msg Login Oper Server Dispatch Conn Live Spec Observ Unch HandOper HandPrefix HandRemote Sessions.
Import ListNotations.

(** ** every line is executed in a live state *)
Theorem C22_lines_are_executed_in_live_states : forall e s s', live s -> (exists i d, e = E_Data i d) \/ e = E_Loop -> step e s = Ok tt s' ->
  actions s s' /\ live s'.
Proof. exact step_actions. Qed.
Print Assumptions C22_lines_are_executed_in_live_states.

(** ** C21 *)
Theorem C21_operator_commands_refused : forall s i h c req b s' n, client_of s i h c -> cl_type c = T_USER -> ~ In "o"%char (cl_modes c) ->
  In n ["DIE"; "RESTART"; "REHASH"; "CONNECT"; "DISCONNECT"; "KILL"; "GLINE"; "KLINE"; "SQUIT"; "WALLOPS"]%string ->
  same_name (rq_command req) (B n) -> Handle_Request i req s = Ok b s' -> unchanged s s'.
Proof. exact oper_cmd_refused. Qed.
Print Assumptions C21_operator_commands_refused.
(** server bans set on other servers need AllowRemoteOper *)
Theorem C21_remote_bans_refused : forall s i h c req b s' n, client_of s i h c -> cl_type c = T_SERVER -> cf_allowremoteoper (s_conf s) = false ->
  n = "GLINE"%string \/ n = "KLINE"%string -> same_name (rq_command req) (B n) -> Handle_Request i req s = Ok b s' -> unchanged s s'.
Proof. exact xline_remote_refused. Qed.
Print Assumptions C21_remote_bans_refused.
(** operators (or anybody else) of other servers can neither break nor make server links *)
Theorem C21_remote_operators_refused : forall s i h c req b s' p n, client_of s i h c -> cl_type c = T_SERVER ->
  cf_allowremoteoper (s_conf s) = false -> rq_prefix req = Some p ->
  (forall u d, called s p u -> lookup u (s_heap s) = Some d -> cl_type d <> T_SERVER /\ ~ is_local d) ->
  n = "SQUIT"%string \/ n = "CONNECT"%string ->
  same_name (rq_command req) (B n) -> Handle_Request i req s = Ok b s' -> unchanged s s'.
Proof. exact remote_refused. Qed.
Print Assumptions C21_remote_operators_refused.

(** bob is no operator: his DIE is executed and refused; the DIE of alice, an operator, is not *)
Example C21_nonvacuous_user : exists c b s', client_of st_oper 6 (named "bob" st_oper) c /\ cl_type c = T_USER /\ ~ In "o"%char (cl_modes c) /\
  Handle_Request 6 (rq ["DiE"]%string) st_oper = Ok b s' /\ s_sigquit s' = false.
Proof.
  destruct (serves_ok st_oper 6 (named "bob" st_oper) (fun c => type_b T_USER c && negb (memb "o" (cl_modes c)))) as (c & K & U); [vm_compute; reflexivity|].
  apply andb_true_iff in U. destruct U as [U1 U2].
  destruct (doing_ok _ (Handle_Request 6 (rq ["DiE"]%string)) st_oper (fun _ s => negb (s_sigquit s))) as (b & s' & H & R); [vm_compute; reflexivity|].
  exists c, b, s'. split; [exact K|]. split; [apply type_b_ok; exact U1|]. split; [apply not_In_b; apply negb_true_iff; exact U2|]. split; [exact H|]. apply negb_true_iff. exact R.
Qed.
Example C21_nonvacuous_operator : exists b s', Handle_Request 5 (rq ["DiE"]%string) st_oper = Ok b s' /\ s_sigquit s' = true.
Proof. apply (doing_ok _ (Handle_Request 5 (rq ["DiE"]%string)) st_oper (fun _ s => s_sigquit s)). vm_compute. reflexivity. Qed.
Example C21_nonvacuous_server : exists c b s', client_of st_link 7 (named "hub.example.net" st_link) c /\ cl_type c = T_SERVER /\ cf_allowremoteoper (s_conf st_link) = false /\
  Handle_Request 7 (rqp "carol" ["GLINE"; "*!*@1.2.3.4"; "100"; "x"]%string) st_link = Ok b s'.
Proof.
  destruct (serves_ok st_link 7 (named "hub.example.net" st_link) (type_b T_SERVER)) as (c & K & U); [vm_compute; reflexivity|].
  destruct (doing_ok _ (Handle_Request 7 (rqp "carol" ["GLINE"; "*!*@1.2.3.4"; "100"; "x"]%string)) st_link (fun _ s => true)) as (b & s' & H & R); [vm_compute; reflexivity|].
  exists c, b, s'. split; [exact K|]. split; [apply type_b_ok; exact U|]. split; [vm_compute; reflexivity|]. exact H.
Qed.
(** carol is an operator on her own server hub.example.net *)
Notation st_carol := (after_link [":carol MODE carol :+o"]%string).
Definition far_b (p : bytes) (s : state) : bool :=
  forallb (fun u => match lookup u (s_heap s) with
                    | Some d => negb (beq (map lower_char (cl_id d)) (map lower_char (nick_part p))) ||
                                negb (ctype_eqb (cl_type d) T_SERVER) && (match cl_conn d with None => true | _ => false end)
                    | None => true end) (s_clients s).
Lemma far_ok : forall p s, far_b p s = true ->
  forall u d, called s p u -> lookup u (s_heap s) = Some d -> cl_type d <> T_SERVER /\ ~ is_local d.
Proof.
  intros p s H u d (d' & [L K] & N) K'. unfold far_b in H. rewrite forallb_forall in H. specialize (H u L). rewrite K' in H.
  assert (d' = d) by congruence. subst d'. unfold same_name in N. rewrite N in H. rewrite (proj2 (beq_eq _ _) eq_refl) in H. cbn [negb orb] in H.
  apply andb_true_iff in H. destruct H as [H1 H2]. split.
  - intro X. rewrite X in H1. discriminate.
  - intros [j X]. rewrite X in H2. discriminate.
Qed.
Example C21_nonvacuous_remote : exists c b s', client_of st_carol 7 (named "hub.example.net" st_carol) c /\ cl_type c = T_SERVER /\
  cf_allowremoteoper (s_conf st_carol) = false /\ has st_carol (named "carol" st_carol) (fun c => memb "o" (cl_modes c)) = true /\
  (forall u d, called st_carol (B "carol") u -> lookup u (s_heap st_carol) = Some d -> cl_type d <> T_SERVER /\ ~ is_local d) /\
  Handle_Request 7 (rqp "carol" ["SQUIT"; "hub.example.net"; "x"]%string) st_carol = Ok b s'.
Proof.
  destruct (serves_ok st_carol 7 (named "hub.example.net" st_carol) (type_b T_SERVER)) as (c & K & U); [vm_compute; reflexivity|].
  destruct (doing_ok _ (Handle_Request 7 (rqp "carol" ["SQUIT"; "hub.example.net"; "x"]%string)) st_carol (fun _ s => true)) as (b & s' & H & R); [vm_compute; reflexivity|].
  exists c, b, s'. split; [exact K|]. split; [apply type_b_ok; exact U|]. split; [vm_compute; reflexivity|]. split; [vm_compute; reflexivity|].
  split; [apply far_ok; vm_compute; reflexivity|]. exact H.
Qed.

(** ** C22 *)
Theorem C22_only_permitted_commands : forall s i h c req b s' name w lo hi, In (name, w, lo, hi) command_table -> client_of s i h c ->
  same_name (rq_command req) (B name) -> ~ permitted w (cl_type c) \/ ~ within lo hi (List.length (rq_args req)) ->
  Handle_Request i req s = Ok b s' -> unchanged s s'.
Proof. exact not_permitted. Qed.
Print Assumptions C22_only_permitted_commands.
(** a command that is not in the table does nothing; only linked servers may send numerics *)
Theorem C22_unknown_commands : forall s i h c req b s', client_of s i h c ->
  (forall n w lo hi, In (n, w, lo, hi) command_table -> ~ same_name (rq_command req) (B n)) ->
  cl_type c <> T_SERVER /\ cl_type c <> T_UNKNOWNSERVER \/ List.length (rq_command req) <> 3 ->
  Handle_Request i req s = Ok b s' -> unchanged s s'.
Proof. exact unknown_command. Qed.
Print Assumptions C22_unknown_commands.
Theorem C22_before_registration : forall s i h c req b s', client_of s i h c -> ~ registered (cl_type c) -> cl_type c <> T_UNKNOWNSERVER ->
  (forall n, In n ["CAP"; "ERROR"; "NICK"; "NOTICE"; "PASS"; "PONG"; "QUIT"; "SERVER"; "SERVICE"; "USER"; "WEBIRC"; "GET"; "POST"]%string -> ~ same_name (rq_command req) (B n)) ->
  Handle_Request i req s = Ok b s' -> unchanged s s'.
Proof. exact before_registration. Qed.
Print Assumptions C22_before_registration.
(** NOTICE is no registration command, but it works without registration: eve, who has only sent
    NICK, sends a message to alice. *)
Theorem C22_notice_refuted : exists c b s', reachable st_nick /\ client_of st_nick 8 (named "eve" st_nick) c /\ ~ registered (cl_type c) /\
  Handle_Request 8 (rq ["NOTICE"; "alice"; "spam"]%string) st_nick = Ok b s' /\
  In (5, B ":eve!@1.2.3.8 NOTICE alice :spam" ++ [CR; LF]) (s_out s').
Proof.
  destruct (serves_ok st_nick 8 (named "eve" st_nick) (type_b T_GOTNICK)) as (c & K & U); [vm_compute; reflexivity|]. apply type_b_ok in U.
  destruct (doing_ok _ (Handle_Request 8 (rq ["NOTICE"; "alice"; "spam"]%string)) st_nick (fun _ s => sends 5 ":eve!@1.2.3.8 NOTICE alice :spam" s)) as (b & s' & H & R); [vm_compute; reflexivity|].
  exists c, b, s'. split; [exact st_nick_reachable|]. split; [exact K|]. split; [rewrite U; intros [X|[X|X]]; discriminate X|]. split; [exact H|].
  unfold sends in R. apply existsb_exists in R. destruct R as ([j t] & A & R). apply andb_true_iff in R. destruct R as [R1 R2]. apply Nat.eqb_eq in R1. apply beq_eq in R2. cbn [fst snd] in *. subst. exact A.
Qed.
Print Assumptions C22_notice_refuted.
Example C22_nonvacuous : exists c b s', client_of st_nick 8 (named "eve" st_nick) c /\ ~ permitted UsersServers (cl_type c) /\
  Handle_Request 8 (rq ["JOIN"; "#test"]%string) st_nick = Ok b s'.
Proof.
  destruct (serves_ok st_nick 8 (named "eve" st_nick) (type_b T_GOTNICK)) as (c & K & U); [vm_compute; reflexivity|]. apply type_b_ok in U.
  destruct (doing_ok _ (Handle_Request 8 (rq ["JOIN"; "#test"]%string)) st_nick (fun _ _ => true)) as (b & s' & H & R); [vm_compute; reflexivity|].
  exists c, b, s'. split; [exact K|]. split; [rewrite U; intros [X|X]; discriminate X|]. exact H.
Qed.

(** ** C23 *)
Theorem C23_user_prefix : forall s i h c text req b s', live s -> undisturbed s -> client_of s i h c -> cl_type c = T_USER ->
  parse_line (trim text) = Some req -> Parse_Request i text s = Ok b s' ->
  match rq_prefix req with
  | None => Handle_Request i req s = Ok b s' \/ (cf_scrubctcp (s_conf s) = true /\ s' = s)
  | Some p => (called s p h /\ Handle_Request i req s = Ok b s') \/
              ((exists u, called s p u /\ u <> h) /\ Conn_Close i None (Some (B "Spoofed prefix")) true s = Ok tt s') \/
              ((forall u, called s p u -> nick_part p = []) /\ unchanged s s') \/
              (cf_scrubctcp (s_conf s) = true /\ s' = s)
  end.
Proof. exact user_origin. Qed.
Print Assumptions C23_user_prefix.
Theorem C23_server_prefix : forall s i h c text req b s', live s -> undisturbed s -> client_of s i h c -> cl_type c = T_SERVER ->
  parse_line (trim text) = Some req -> Parse_Request i text s = Ok b s' ->
  match rq_prefix req with
  | None => Handle_Request i req s = Ok b s' \/ unchanged s s'
  | Some p => ((exists u, called s p u /\ behind s h u) /\ Handle_Request i req s = Ok b s') \/ s' = s
  end.
Proof. exact server_origin. Qed.
Print Assumptions C23_server_prefix.
Theorem C23_no_prefix_before_registration : forall s i h c text req b s', client_of s i h c -> ~ registered (cl_type c) ->
  parse_line (trim text) = Some req -> Parse_Request i text s = Ok b s' ->
  Handle_Request i (mkReq None (rq_command req) (rq_args req)) s = Ok b s' \/ (cf_scrubctcp (s_conf s) = true /\ s' = s).
Proof. exact unregistered_origin. Qed.
Print Assumptions C23_no_prefix_before_registration.
(** bob tries to speak as alice and loses his connection *)
Example C23_nonvacuous_user : exists c b s', live st_link /\ undisturbed st_link /\ client_of st_link 6 (named "bob" st_link) c /\ cl_type c = T_USER /\
  parse_line (trim (B ":alice QUIT :bye")) = Some (rqp "alice" ["QUIT"; "bye"]%string) /\
  Parse_Request 6 (B ":alice QUIT :bye") st_link = Ok b s' /\ has s' (named "alice" st_link) (user_b "alice") = true /\ has s' (named "bob" st_link) (user_b "bob") = false.
Proof.
  destruct (serves_ok st_link 6 (named "bob" st_link) (type_b T_USER)) as (c & K & U); [vm_compute; reflexivity|]. apply type_b_ok in U.
  destruct (doing_ok _ (Parse_Request 6 (B ":alice QUIT :bye")) st_link (fun _ s' => has s' (named "alice" st_link) (user_b "alice") && negb (has s' (named "bob" st_link) (user_b "bob")))) as (b & s' & H & R); [vm_compute; reflexivity|].
  apply andb_true_iff in R. destruct R as [R1 R2]. apply negb_true_iff in R2.
  exists c, b, s'. split; [apply V_reach; exact st_link_reachable|]. split; [apply calm_ok; vm_compute; reflexivity|]. split; [exact K|]. split; [exact U|]. split; [vm_compute; reflexivity|]. split; [exact H|]. split; [exact R1|exact R2].
Qed.
(** the hub speaks for dave, who is behind it *)
Example C23_nonvacuous_server : exists c b s', client_of st_link 7 (named "hub.example.net" st_link) c /\ cl_type c = T_SERVER /\
  Parse_Request 7 (B ":dave PRIVMSG alice :hi") st_link = Ok b s' /\ sends 5 ":dave!dave@host.example.org PRIVMSG alice :hi" s' = true.
Proof.
  destruct (serves_ok st_link 7 (named "hub.example.net" st_link) (type_b T_SERVER)) as (c & K & U); [vm_compute; reflexivity|]. apply type_b_ok in U.
  destruct (doing_ok _ (Parse_Request 7 (B ":dave PRIVMSG alice :hi")) st_link (fun _ s' => sends 5 ":dave!dave@host.example.org PRIVMSG alice :hi" s')) as (b & s' & H & R); [vm_compute; reflexivity|].
  exists c, b, s'. split; [exact K|]. split; [exact U|]. split; [exact H|exact R].
Qed.
