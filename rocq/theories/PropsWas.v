(** Property theorems about the WHOWAS history (C35). *)
From Coq Require Import List Ascii String ZArith NArith Bool Lia Arith.
From Verif Require Import Bytes Match Lists ParseReq State Monad Core Write Info Chan Mode Msg Login Oper Server Dispatch Conn WF RelCmd Live Observ HandWas Sessions PropsUser PropsLogin PropsSend Spec SpecMore SpecWas.
Import ListNotations.

(** ** C35 *)
(** In every state, what is remembered is the newest 64 entries of the history of all who left or changed their
    nickname; in the beginning, there are only empty entries. *)
Theorem C35_history : forall s, live s -> exists g, history s g /\ remembered s = firstn 64 (g ++ repeat no_entry 64).
Proof. exact live_kept. Qed.
Print Assumptions C35_history.
(** Every line that is executed, and every chore, adds an entry for each user or service that leaves or changes its
    nickname by it and has been known for 30 seconds, and no others. *)
Theorem C35_action : forall s s', live s -> action s s' -> exists gone, departures s s' gone /\ remembered s' = firstn 64 (map snd gone ++ remembered s).
Proof. exact action_was. Qed.
Print Assumptions C35_action.
(** So does everything else that happens (connections are opened and lost, names resolved). *)
Theorem C35_event : forall e s s', live s -> no_lines e -> step e s = Ok tt s' -> exists gone, departures s s' gone /\ remembered s' = firstn 64 (map snd gone ++ remembered s).
Proof. exact event_was. Qed.
Print Assumptions C35_event.
(** The passing of time changes nothing. *)
Theorem C35_time : forall t r s s', step (E_Time t r) s = Ok tt s' -> remembered s' = remembered s.
Proof. exact time_was. Qed.
Print Assumptions C35_time.
(** The entries tell who the user was: when a user changes his nickname, when a line is executed that cannot change
    anything else about a client, when a connection is closed by the server, and when one is lost. *)
Theorem C35_content_line : forall s i h c text b s', live s -> client_of s i h c -> Parse_Request i text s = Ok b s' ->
  ~ a_line_of text changing \/ (cl_type c = T_USER /\ exists args, says text "NICK" args) -> content s s'.
Proof. exact line_content. Qed.
Print Assumptions C35_content_line.
Theorem C35_content_chore : forall s s', live s -> chore s s' -> content s s'.
Proof. exact chore_content. Qed.
Print Assumptions C35_content_chore.
Theorem C35_content_event : forall e s s', live s -> no_lines e -> (forall i host, e <> E_Resolved i host) -> step e s = Ok tt s' -> content s s'.
Proof. exact event_content. Qed.
Print Assumptions C35_content_event.

(** bob has become bobby, and alice has left; eve has left too, but too soon *)
Notation st_was := (final conf0 [] (two_users ++ login 8 "1.2.3.8" "eve" ++ [E_Data 6 (crlf "NICK bobby"); E_Time 2010 7; E_Data 5 (crlf "QUIT"); E_Data 8 (crlf "QUIT"); E_Time 2020 7; E_Data 6 (crlf "TIME")])).
Lemma st_was_reachable : reachable st_was.
Proof. apply reach_final; [exact conf0_ok|vm_compute; reflexivity]. Qed.
Definition was_b (s : state) (l : list (string * string * Z)) : bool :=
  Nat.eqb (List.length (filter (fun e => negb (ww_time e =? 0)%Z) (remembered s))) (List.length l) &&
  forallb (fun p => beq (ww_id (fst p)) (B (fst (fst (snd p)))) && beq (ww_host (fst p)) (B (snd (fst (snd p)))) && (ww_time (fst p) =? snd (snd p))%Z) (combine (remembered s) l).
Example C35_nonvacuous : live st_was /\ was_b st_was [("alice"%string, "1.2.3.4"%string, 2010%Z); ("bob"%string, "1.2.3.5"%string, 2000%Z)] = true.
Proof. split; [apply V_reach, st_was_reachable|]. vm_compute. reflexivity. Qed.
(** alice, who has been here for 1000 seconds, can send a line to which the theorem about the entries applies *)
Example C35_content_nonvacuous : exists h c b s', live (final conf0 [] two_users) /\ client_of (final conf0 [] two_users) 5 h c /\ cl_type c = T_USER /\ Parse_Request 5 (B "NICK wonder") (final conf0 [] two_users) = Ok b s' /\
  says (B "NICK wonder") "NICK" [B "wonder"] /\ long_known (final conf0 [] two_users) c /\ was_b s' [("alice"%string, "1.2.3.4"%string, 2000%Z)] = true.
Proof.
  assert (S : serves (final conf0 [] two_users) 5 (named "alice" (final conf0 [] two_users)) (fun c => type_b T_USER c && (cl_starttime c + 30 <=? 2000)%Z) = true) by (vm_compute; reflexivity).
  destruct (serves_ok _ _ _ _ S) as (c & C & T). apply andb_true_iff in T. destruct T as [T T2].
  assert (Q : doing (Parse_Request 5 (B "NICK wonder")) (final conf0 [] two_users) (fun _ s => was_b s [("alice"%string, "1.2.3.4"%string, 2000%Z)]) = true) by (vm_compute; reflexivity).
  destruct (doing_ok _ _ _ _ Q) as (b & s' & P & K). exists (named "alice" (final conf0 [] two_users)), c, b, s'.
  split; [apply V_reach, reach_final; [exact conf0_ok|vm_compute; reflexivity]|]. split; [exact C|]. split; [apply type_b_ok; exact T|]. split; [exact P|]. split; [|split; [|exact K]].
  - exists None, (B "NICK"). split; vm_compute; reflexivity.
  - unfold long_known. assert (N : s_now (final conf0 [] two_users) = 2000%Z) by (vm_compute; reflexivity). rewrite N. apply Z.leb_le. exact T2.
Qed.
