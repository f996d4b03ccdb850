(** Property theorems about SQUIT and lost links (C26). *)
From Coq Require Import List Ascii String ZArith NArith Bool Lia Arith.
From Verif Require Import Bytes Match Lists ParseReq State Monad Core Write Info Chan Mode Msg Login Oper Server Dispatch Conn WF RelCmd Tree Live Observ HandLine Output HandDo HandSend HandCast HandNick HandSquit Split Sessions PropsUser PropsLogin PropsSend PropsMore PropsLink PropsNick Spec SpecLink SpecNick SpecSplit.
Import ListNotations.

(** ** C26 *)
(** A SQUIT for [g] (given by an IRC operator of this server, or by somebody behind a linked server who may do it):
    if [g] is connected to this server, or the SQUIT was given by a server, then exactly the clients behind [g]
    disappear, with their memberships and the channels which become empty, and everything else stays.  Otherwise (an
    operator wants a server to be removed which is not linked to this one) nothing changes here: the next server is
    asked to do it. *)
Theorem C26_squit : forall s i h c text t why u d g e b s', live s -> undisturbed s -> client_of s i h c -> ordered_by s h c text "SQUIT" [t; why] u d ->
  the_client s t g e -> cl_id e <> [] -> g <> This_Server -> Parse_Request i text s = Ok b s' ->
  (cl_conn e <> None \/ cl_type d = T_SERVER -> removed g s s') /\ (cl_conn e = None -> cl_type d <> T_SERVER -> unchanged s s').
Proof. exact squit_line. Qed.
Print Assumptions C26_squit.
(** Whatever happens between the commands (errors, time outs, ...): when a connection disappears, then it is the only
    one, and exactly the clients behind it disappear. *)
Theorem C26_lost_between_commands : forall s s' i cn, live s -> undisturbed s -> chore s s' -> assoc i (s_conns s) = Some cn -> assoc i (s_conns s') = None ->
  exists h c, known s h c /\ cl_conn c = Some i /\ removed h s s' /\ forall j, j <> i -> (assoc j (s_conns s') = None <-> assoc j (s_conns s) = None).
Proof. exact chore_lost. Qed.
Print Assumptions C26_lost_between_commands.

Definition count (s : state) : nat * nat := (List.length (s_clients s), List.length (s_members s)).
Definition counts (s : state) (n m : nat) : bool := Nat.eqb (List.length (s_clients s)) n && Nat.eqb (List.length (s_members s)) m.
Lemma counts_ok : forall s n m, counts s n m = true -> count s = (n, m).
Proof. intros s n m H. apply andb_true_iff in H. destruct H as [H1 H2]. apply Nat.eqb_eq in H1, H2. unfold count. congruence. Qed.
(** the server [h] gives the order itself *)
Definition self_b (s : state) (h : handle) (text : bytes) (n : string) (args : list bytes) : bool :=
  match parse_line (trim text) with Some (mkReq (Some p) name a) => name_b name (B n) && (if list_eq_dec (list_eq_dec ascii_dec) a args then true else false) && the_client_b s p h | _ => false end &&
  negb (cf_scrubctcp (s_conf s)) && has s h (fun c => type_b T_SERVER c && negb (beq (cl_id c) []) && match cl_introducer c with Some x => Nat.eqb x h || Nat.eqb x This_Server | None => true end).
Lemma self_ok : forall s h c text n args, lookup h (s_heap s) = Some c -> self_b s h text n args = true -> ordered_by s h c text n args h c /\ cl_type c = T_SERVER.
Proof.
  intros s h c text n args A H. unfold self_b in H. rewrite !andb_true_iff, !negb_true_iff in H. destruct H as [[H1 H2] H6]. apply has_ok in H6. destruct H6 as (c' & [K1 K2] & H6).
  rewrite A in K2. injection K2 as <-. rewrite !andb_true_iff, negb_true_iff in H6. destruct H6 as [[H6 H7] H8]. apply type_b_ok in H6. split; auto. right. split; auto. split.
  - destruct (parse_line (trim text)) as [[[p|] name a]|]; try discriminate H1. rewrite !andb_true_iff in H1. destruct H1 as [[H1 H9] H10]. destruct (list_eq_dec (list_eq_dec ascii_dec) a args) as [-> |]; [|discriminate H9]. exists p, name. split; auto. split; [apply name_b_ok; exact H1|]. apply the_client_ok; [split; auto|exact H10].
  - split; [intro X; congruence|]. split; [|split; [intro E; rewrite E in H7; discriminate H7|auto]]. eapply NH_direct; [exact A|]. destruct (cl_introducer c) as [x|]; auto. apply orb_true_iff in H8. destruct H8 as [H8|H8]; apply Nat.eqb_eq in H8; subst x; auto.
Qed.
(** the hub removes the leaf behind it, with dave *)
Example C26_squit_nonvacuous : exists c e s', let hub := named "hub.example.net" st_link in let leaf := named "leaf.example.net" st_link in
  live st_link /\ undisturbed st_link /\ client_of st_link 7 hub c /\ ordered_by st_link hub c (B ":hub.example.net SQUIT leaf.example.net :bye") "SQUIT" [B "leaf.example.net"; B "bye"] hub c /\
  the_client st_link (B "leaf.example.net") leaf e /\ cl_id e <> [] /\ leaf <> This_Server /\ cl_conn e = None /\ cl_type c = T_SERVER /\
  Parse_Request 7 (B ":hub.example.net SQUIT leaf.example.net :bye") st_link = Ok CONNECTED s' /\ count st_link = (7, 4) /\ count s' = (5, 3).
Proof.
  destruct (serves_ok st_link 7 (named "hub.example.net" st_link) (fun _ => true)) as (c & C & _); [vm_compute; reflexivity|].
  destruct (has_ok st_link (named "leaf.example.net" st_link) (fun c => negb (beq (cl_id c) []) && negb (is_some (cl_conn c)))) as (e & E1 & E2); [vm_compute; reflexivity|]. rewrite andb_true_iff, !negb_true_iff in E2. destruct E2 as [E2 E3].
  destruct (doing_ok _ (Parse_Request 7 (B ":hub.example.net SQUIT leaf.example.net :bye")) st_link (fun b s => b && counts s 5 3)) as (b & s' & H & R); [vm_compute; reflexivity|]. rewrite andb_true_iff in R. destruct R as [R1 R2].
  destruct (self_ok st_link (named "hub.example.net" st_link) c (B ":hub.example.net SQUIT leaf.example.net :bye") "SQUIT" [B "leaf.example.net"; B "bye"]) as [S1 S2]; [apply C|vm_compute; reflexivity|].
  exists c, e, s'. cbv zeta. split; [apply V_reach; exact st_link_reachable|]. split; [apply calm_ok; vm_compute; reflexivity|]. split; [exact C|]. split; [exact S1|]. split; [apply the_client_ok; [exact E1|vm_compute; reflexivity]|].
  split; [intro X; rewrite X in E2; discriminate E2|]. split; [vm_compute; discriminate|]. split; [destruct (cl_conn e); [discriminate E3|reflexivity]|]. split; [exact S2|]. split; [rewrite H, R1; reflexivity|]. split; [apply counts_ok; vm_compute; reflexivity|]. apply counts_ok; exact R2.
Qed.
(** alice, an operator, removes the hub and all behind it; the leaf she can not remove *)
Example C26_squit_oper_nonvacuous : exists c e1 e2 s1 s2, let alice := named "alice" st_oper in let hub := named "hub.example.net" st_oper in let leaf := named "leaf.example.net" st_oper in
  live st_oper /\ undisturbed st_oper /\ client_of st_oper 5 alice c /\ ordered_by st_oper alice c (B "SQUIT hub.example.net :bye") "SQUIT" [B "hub.example.net"; B "bye"] alice c /\ ordered_by st_oper alice c (B "SQUIT leaf.example.net :bye") "SQUIT" [B "leaf.example.net"; B "bye"] alice c /\
  the_client st_oper (B "hub.example.net") hub e1 /\ cl_conn e1 <> None /\ the_client st_oper (B "leaf.example.net") leaf e2 /\ cl_conn e2 = None /\ cl_type c <> T_SERVER /\
  Parse_Request 5 (B "SQUIT hub.example.net :bye") st_oper = Ok CONNECTED s1 /\ Parse_Request 5 (B "SQUIT leaf.example.net :bye") st_oper = Ok CONNECTED s2 /\
  count st_oper = (7, 4) /\ count s1 = (3, 2) /\ count s2 = (7, 4) /\ sends 7 ":alice SQUIT leaf.example.net :bye" s2 = true.
Proof.
  destruct (serves_ok st_oper 5 (named "alice" st_oper) (fun c => type_b T_USER c && memb "o" (cl_modes c))) as (c & C & T); [vm_compute; reflexivity|]. apply andb_true_iff in T. destruct T as [T1 T2]. apply type_b_ok in T1. apply memb_In in T2.
  destruct (has_ok st_oper (named "leaf.example.net" st_oper) (fun c => negb (is_some (cl_conn c)))) as (e & E1 & E2); [vm_compute; reflexivity|]. rewrite negb_true_iff in E2.
  destruct (has_ok st_oper (named "hub.example.net" st_oper) (fun c => is_some (cl_conn c))) as (f & F1 & F2); [vm_compute; reflexivity|].
  destruct (doing_ok _ (Parse_Request 5 (B "SQUIT hub.example.net :bye")) st_oper (fun b s => b && counts s 3 2)) as (b & s1 & H & R); [vm_compute; reflexivity|]. rewrite andb_true_iff in R. destruct R as [R1 R2].
  destruct (doing_ok _ (Parse_Request 5 (B "SQUIT leaf.example.net :bye")) st_oper (fun b s => b && counts s 7 4 && sends 7 ":alice SQUIT leaf.example.net :bye" s)) as (b' & s2 & H' & R'); [vm_compute; reflexivity|]. rewrite !andb_true_iff in R'. destruct R' as [[R3 R4] R5].
  exists c, f, e, s1, s2. cbv zeta. split; [apply V_reach; exact st_oper_reachable|]. split; [apply calm_ok; vm_compute; reflexivity|]. split; [exact C|].
  split; [left; split; [exact T1|]; split; [exact T2|]; split; [apply orders_b; vm_compute; reflexivity|]; split; reflexivity|]. split; [left; split; [exact T1|]; split; [exact T2|]; split; [apply orders_b; vm_compute; reflexivity|]; split; reflexivity|].
  split; [apply the_client_ok; [exact F1|vm_compute; reflexivity]|]. split; [intro X; rewrite X in F2; discriminate F2|]. split; [apply the_client_ok; [exact E1|vm_compute; reflexivity]|]. split; [destruct (cl_conn e); [discriminate E2|reflexivity]|]. split; [rewrite T1; discriminate|].
  split; [rewrite H, R1; reflexivity|]. split; [rewrite H', R3; reflexivity|]. split; [apply counts_ok; vm_compute; reflexivity|]. split; [apply counts_ok; exact R2|]. split; [apply counts_ok; exact R4|exact R5].
Qed.
(** the connection to the hub is closed after a time out *)
Example C26_lost_between_commands_nonvacuous : exists s', live st_link /\ undisturbed st_link /\ chore st_link s' /\ is_some (assoc 7 (s_conns st_link)) = true /\ assoc 7 (s_conns s') = None /\ count st_link = (7, 4) /\ count s' = (3, 2).
Proof.
  destruct (doing_ok _ (Conn_Close 7 None (Some (B "Ping timeout")) true) st_link (fun _ s => counts s 3 2 && negb (is_some (assoc 7 (s_conns s))))) as ([] & s' & H & R); [vm_compute; reflexivity|]. rewrite andb_true_iff, negb_true_iff in R. destruct R as [R1 R2].
  exists s'. split; [apply V_reach; exact st_link_reachable|]. split; [apply calm_ok; vm_compute; reflexivity|]. split; [eapply A_close; exact H|]. split; [vm_compute; reflexivity|]. split; [destruct (assoc 7 (s_conns s')); [discriminate R2|reflexivity]|]. split; [apply counts_ok; vm_compute; reflexivity|]. apply counts_ok. exact R1.
Qed.
