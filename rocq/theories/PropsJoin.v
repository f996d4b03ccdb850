(** Property theorems about what others are told when a user joins a channel (C28, C29, C31). *)
From Coq Require Import List Ascii String ZArith NArith Bool Lia Arith.
From Verif Require Import Bytes Match Lists ParseReq State Monad Core Write Info Chan Mode Msg Login Oper Server Dispatch Conn WF RelCmd Tree Live Observ HandLine Output HandDo HandSend HandCast HandNick HandJoined Sessions PropsUser PropsLogin PropsSend PropsMore PropsLink PropsNick Spec SpecLink SpecNick SpecJoin.
Import ListNotations.

(** ** C28 *)
(** A JOIN for one channel which takes effect (the user [u] is on [ch] afterwards, with the modes [ms], and was not
    before), given by the user himself or by the server he is behind: every linked server except the source is told
    exactly once, with the modes the user has got (peers with the old protocol by a separate MODE command); the users
    of this server who are on the channel are sent the JOIN (and the MODE, if there are modes) once and nothing else;
    the user himself, if he is one of this server, is told first of all that he has joined; nobody else is sent
    anything. *)
Theorem C28_join_partial : forall s i h c text a rest name u d ch ms b s', live s -> undisturbed s -> server_settled s -> client_of s i h c -> acts s h c text "JOIN" (a :: rest) u d -> nick_fits d -> settled d ->
  (List.length rest <= 1)%nat -> join_arg c a name -> ~ In ","%char a -> ~ In NUL a -> a <> B "0" -> Parse_Request i text s = Ok b s' -> ~ is_on s u ch -> modes_on s' u ch ms ->
  (~ local_name name -> forall j x, link s j x -> is_open s j = true -> written s s' j (if (i =? j)%nat then [] else map (relayed d) (join_server (old_peer s' j) name (told ms) (cl_id d)))) /\
  (local_name name -> to_no_server s s') /\
  (forall j x, local_on s j ch x -> is_open s j = true -> written s s' j (map (line_from s d x) (join_user name (told ms) (cl_id d)))) /\
  (cl_type c = T_USER -> is_open s i = true -> exists more, written s s' i (line_from s d d (B "JOIN :" ++ name) :: more)) /\
  (forall j, is_open s j = true -> (forall x, ~ link s j x) -> (forall x, ~ local_on s j ch x) -> i <> j -> written s s' j []).
Proof. exact join_link. Qed.
Print Assumptions C28_join_partial.
(** ** C29 *)
(** joining a local channel is not told to any linked server *)
Theorem C29_join_partial : forall s i h c text a rest name u d ch ms b s', live s -> undisturbed s -> server_settled s -> client_of s i h c -> acts s h c text "JOIN" (a :: rest) u d -> nick_fits d -> settled d ->
  (List.length rest <= 1)%nat -> join_arg c a name -> ~ In ","%char a -> ~ In NUL a -> a <> B "0" -> Parse_Request i text s = Ok b s' -> ~ is_on s u ch -> modes_on s' u ch ms -> local_name name -> to_no_server s s'.
Proof. exact join_local. Qed.
Print Assumptions C29_join_partial.
(** ** C31 *)
(** the lines users are sent when a cloaked user joins have his cloaked host name in the prefix *)
Theorem C31_join_partial : forall s i h c text a rest name u d ch ms b s' v, live s -> undisturbed s -> server_settled s -> client_of s i h c -> acts s h c text "JOIN" (a :: rest) u d -> nick_fits d -> In "x"%char (cl_modes d) -> cl_cloaked d = Some v ->
  (List.length rest <= 1)%nat -> join_arg c a name -> ~ In ","%char a -> ~ In NUL a -> a <> B "0" -> Parse_Request i text s = Ok b s' -> ~ is_on s u ch -> modes_on s' u ch ms ->
  forall j x, local_on s j ch x -> is_open s j = true -> written s s' j (map (line_with d v) (join_user name (told ms) (cl_id d))).
Proof.
  intros s i h c text a rest name u d ch ms b s' v L U SS C AC NF X CL H1 H2 H3 H4 H5 H NO MO j x LO OP. destruct (join_link s i h c text a rest name u d ch ms b s' L U SS C AC NF ltac:(intros _ E; congruence) H1 H2 H3 H4 H5 H NO MO) as (_ & _ & R & _).
  rewrite (map_ext _ _ (fun t => eq_sym (cloaked_line s d x t v ltac:(destruct LO as (y & _ & _ & _ & T); exact T) X CL))). apply R; auto.
Qed.
Print Assumptions C31_join_partial.

(** ** examples *)
Definition modes_b (u : handle) (ch : chandle) (ms : bytes) (s : state) : bool := existsb (fun m => Nat.eqb (mb_client m) u && Nat.eqb (mb_chan m) ch && beq (mb_modes m) ms) (s_members s).
Lemma modes_ok : forall u ch ms s, modes_b u ch ms s = true -> modes_on s u ch ms.
Proof. intros u ch ms s H. apply existsb_exists in H. destruct H as (m & I & H). rewrite !andb_true_iff in H. destruct H as [[H1 H2] H3]. apply Nat.eqb_eq in H1, H2. apply beq_eq in H3. exists m. auto. Qed.
Definition joins (name : string) (ms : list ascii) : bytes := B name ++ match ms with [] => [] | _ => bell :: ms end.
Definition gets_line (i : connid) (t : bytes) (s : state) : bool := existsb (fun p => Nat.eqb (fst p) i && beq (snd p) (t ++ [Bytes.CR; LF])) (s_out s).
(** alice is alone on #only; the server which carol is behind lets her join, with the mode o *)
Notation st_only := (final conf0 [peer; peer2] (two_users ++ Sessions.link ++ link2 ++ [E_Data 5 (crlf "JOIN #only"); E_Time 2030 7])).
Lemma st_only_reachable : reachable st_only.
Proof. apply reach_final; [exact conf0_ok|vm_compute; reflexivity]. Qed.
Notation carol_joins := (joins ":carol JOIN #Only" ["o"%char]) (only parsing).
Example C28_join_nonvacuous : exists c d e s', let hub := named "hub.example.net" st_only in let carol := named "carol" st_only in let ch := cnamed "#only" st_only in
  live st_only /\ undisturbed st_only /\ server_settled st_only /\ client_of st_only 7 hub c /\ acts st_only hub c carol_joins "JOIN" [joins "#Only" ["o"%char]] carol d /\ nick_fits d /\ settled d /\ join_arg c (joins "#Only" ["o"%char]) (B "#Only") /\
  Parse_Request 7 carol_joins st_only = Ok CONNECTED s' /\ ~ is_on st_only carol ch /\ modes_on s' carol ch (B "o") /\ (exists x, link st_only 8 x) /\ local_on st_only 5 ch e /\
  gets_line 8 (joins ":carol JOIN #Only" ["o"%char]) s' = true /\ more 7 0 st_only s' = true /\ sends 5 ":carol!carol@host.example.org JOIN :#Only" s' = true /\ sends 5 ":carol!carol@host.example.org MODE #Only +o carol" s' = true /\ more 5 2 st_only s' = true /\ more 6 0 st_only s' = true.
Proof.
  destruct (serves_ok st_only 7 (named "hub.example.net" st_only) (type_b T_SERVER)) as (c & C & T); [vm_compute; reflexivity|]. apply type_b_ok in T.
  destruct (has_ok st_only (named "carol" st_only) plain_user) as (d & D1 & D2); [vm_compute; reflexivity|]. apply plain_user_ok in D2. destruct D2 as (D2 & D3 & D4).
  destruct (has_ok st_only (named "alice" st_only) (fun c => plain_user c && match cl_conn c with Some x => Nat.eqb x 5 | None => false end)) as (e & E1 & E2); [vm_compute; reflexivity|]. apply andb_true_iff in E2. destruct E2 as [E2 E3]. apply plain_user_ok in E2. destruct E2 as (E2 & _). destruct (cl_conn e) as [x|] eqn:EC; [|discriminate E3]. apply Nat.eqb_eq in E3. subst x.
  destruct (doing_ok _ (Parse_Request 7 carol_joins) st_only (fun b s => b && modes_b (named "carol" st_only) (cnamed "#only" st_only) (B "o") s && gets_line 8 (joins ":carol JOIN #Only" ["o"%char]) s && more 7 0 st_only s && sends 5 ":carol!carol@host.example.org JOIN :#Only" s && sends 5 ":carol!carol@host.example.org MODE #Only +o carol" s && more 5 2 st_only s && more 6 0 st_only s)) as (b & s' & H & R); [vm_compute; reflexivity|].
  rewrite !andb_true_iff in R. destruct R as [[[[[[[R1 R2] R3] R4] R5] R6] R7] R8].
  exists c, d, e, s'. cbv zeta. split; [apply V_reach; exact st_only_reachable|]. split; [apply calm_ok; vm_compute; reflexivity|]. split; [apply settled_ok; vm_compute; reflexivity|]. split; [exact C|]. split; [apply acts_ok; [apply C|exact D1|vm_compute; reflexivity]|]. split; [exact D4|]. split; [exact D3|].
  split; [right; split; [exact T|]; split; [apply not_In_b; vm_compute; reflexivity|right; exists (B "o"); reflexivity]|]. split; [rewrite H, R1; reflexivity|]. split; [apply not_on_b; vm_compute; reflexivity|]. split; [apply modes_ok; exact R2|].
  split; [apply (link_is_ok _ _ (named "other.example.net" st_only)); vm_compute; reflexivity|]. split; [exists (named "alice" st_only); split; [apply on_b_ok; vm_compute; reflexivity|]; split; [apply E1|]; split; [exact EC|congruence]|]. auto 10.
Qed.
(** bob makes a channel: the servers are told that he is its operator *)
Example C28_join_new_nonvacuous : exists c ch s', let bob := named "bob" st_only in
  client_of st_only 6 bob c /\ acts st_only bob c (B "JOIN #new") "JOIN" [B "#new"] bob c /\ nick_fits c /\ settled c /\ join_arg c (B "#new") (B "#new") /\
  Parse_Request 6 (B "JOIN #new") st_only = Ok CONNECTED s' /\ ~ is_on st_only bob ch /\ modes_on s' bob ch (B "o") /\
  gets_line 7 (joins ":bob JOIN #new" ["o"%char]) s' = true /\ gets_line 8 (joins ":bob JOIN #new" ["o"%char]) s' = true /\ more 7 1 st_only s' = true /\ more 5 0 st_only s' = true /\ sends 6 ":bob!~bob@1.2.3.5 JOIN :#new" s' = true.
Proof.
  destruct (serves_ok st_only 6 (named "bob" st_only) plain_user) as (c & C & T); [vm_compute; reflexivity|]. apply plain_user_ok in T. destruct T as (T & T2 & T3).
  destruct (doing_ok _ (Parse_Request 6 (B "JOIN #new")) st_only (fun b s => b && modes_b (named "bob" st_only) (s_chnext st_only) (B "o") s && gets_line 7 (joins ":bob JOIN #new" ["o"%char]) s && gets_line 8 (joins ":bob JOIN #new" ["o"%char]) s && more 7 1 st_only s && more 5 0 st_only s && sends 6 ":bob!~bob@1.2.3.5 JOIN :#new" s)) as (b & s' & H & R); [vm_compute; reflexivity|].
  rewrite !andb_true_iff in R. destruct R as [[[[[[R1 R2] R3] R4] R5] R6] R7].
  exists c, (s_chnext st_only), s'. cbv zeta. split; [exact C|]. split; [left; split; [exact T|]; split; [apply orders_b; vm_compute; reflexivity|auto]|]. split; [exact T3|]. split; [exact T2|]. split; [left; auto|].
  split; [rewrite H, R1; reflexivity|]. split; [apply not_on_b; vm_compute; reflexivity|]. split; [apply modes_ok; exact R2|]. auto 10.
Qed.
(** carol, on the server on connection 7, is let join the local channel: the other one is not told *)
Example C29_join_nonvacuous : exists c d s', let hub := named "hub.example.net" st_loc in let carol := named "carol" st_loc in let ch := cnamed "&loc" st_loc in
  client_of st_loc 7 hub c /\ acts st_loc hub c (B ":carol JOIN &loc") "JOIN" [B "&loc"] carol d /\ nick_fits d /\ settled d /\ join_arg c (B "&loc") (B "&loc") /\ local_name (B "&loc") /\
  Parse_Request 7 (B ":carol JOIN &loc") st_loc = Ok CONNECTED s' /\ ~ is_on st_loc carol ch /\ modes_on s' carol ch [] /\ (exists x, link st_loc 8 x) /\ more 8 0 st_loc s' = true /\ more 7 0 st_loc s' = true /\ more 5 1 st_loc s' = true.
Proof.
  destruct (serves_ok st_loc 7 (named "hub.example.net" st_loc) (type_b T_SERVER)) as (c & C & T); [vm_compute; reflexivity|]. apply type_b_ok in T.
  destruct (has_ok st_loc (named "carol" st_loc) plain_user) as (d & D1 & D2); [vm_compute; reflexivity|]. apply plain_user_ok in D2. destruct D2 as (D2 & D3 & D4).
  destruct (doing_ok _ (Parse_Request 7 (B ":carol JOIN &loc")) st_loc (fun b s => b && modes_b (named "carol" st_loc) (cnamed "&loc" st_loc) [] s && more 8 0 st_loc s && more 7 0 st_loc s && more 5 1 st_loc s)) as (b & s' & H & R); [vm_compute; reflexivity|].
  rewrite !andb_true_iff in R. destruct R as [[[[R1 R2] R3] R4] R5].
  exists c, d, s'. cbv zeta. split; [exact C|]. split; [apply acts_ok; [apply C|exact D1|vm_compute; reflexivity]|]. split; [exact D4|]. split; [exact D3|]. split; [right; split; [exact T|]; split; [apply not_In_b; vm_compute; reflexivity|left; reflexivity]|]. split; [exists (B "loc"); reflexivity|].
  split; [rewrite H, R1; reflexivity|]. split; [apply not_on_b; vm_compute; reflexivity|]. split; [apply modes_ok; exact R2|]. split; [apply (link_is_ok _ _ (named "other.example.net" st_loc)); vm_compute; reflexivity|]. auto.
Qed.
(** bob, who is cloaked, joins a channel of alice *)
Notation st_cloak2 := (final conf0 [peer] (two_users ++ Sessions.link ++ [E_Time 2020 7; E_Data 7 (crlf ":hub.example.net MODE bob +x"); E_Time 2030 7; E_Data 5 (crlf "JOIN #only"); E_Time 2040 7])).
Lemma st_cloak2_reachable : reachable st_cloak2.
Proof. apply reach_final; [exact conf0_ok|vm_compute; reflexivity]. Qed.
Example C31_join_nonvacuous : exists c v s', let bob := named "bob" st_cloak2 in let ch := cnamed "#only" st_cloak2 in
  live st_cloak2 /\ undisturbed st_cloak2 /\ server_settled st_cloak2 /\ client_of st_cloak2 6 bob c /\ acts st_cloak2 bob c (B "JOIN #only") "JOIN" [B "#only"] bob c /\ nick_fits c /\ In "x"%char (cl_modes c) /\ cl_cloaked c = Some v /\ v <> cl_host c /\
  Parse_Request 6 (B "JOIN #only") st_cloak2 = Ok CONNECTED s' /\ ~ is_on st_cloak2 bob ch /\ modes_on s' bob ch [] /\ existsb (fun p => Nat.eqb (fst p) 5 && beq (snd p) (line_with c v (B "JOIN :#only"))) (s_out s') = true.
Proof.
  destruct (serves_ok st_cloak2 6 (named "bob" st_cloak2) (fun c => type_b T_USER c && memb "x" (cl_modes c) && negb (beq (cl_id c) []) && Nat.ltb (List.length (cl_id c)) 32 && match cl_cloaked c with Some v => negb (beq v (cl_host c)) &&
      doing (Parse_Request 6 (B "JOIN #only")) st_cloak2 (fun b s => b && modes_b (named "bob" st_cloak2) (cnamed "#only" st_cloak2) [] s && existsb (fun p => Nat.eqb (fst p) 5 && beq (snd p) (line_with c v (B "JOIN :#only"))) (s_out s)) | None => false end)) as (c & C & T); [vm_compute; reflexivity|].
  rewrite !andb_true_iff, negb_true_iff in T. destruct T as [[[[T1 T2] T3] T4] T5]. apply type_b_ok in T1. destruct (cl_cloaked c) as [v|] eqn:CV; [|discriminate T5]. rewrite andb_true_iff, negb_true_iff in T5. destruct T5 as [T5 T7].
  apply doing_ok in T7. destruct T7 as (b & s' & H & R). rewrite !andb_true_iff in R. destruct R as [[R1 R2] R3].
  exists c, v, s'. cbv zeta. split; [apply V_reach; exact st_cloak2_reachable|]. split; [apply calm_ok; vm_compute; reflexivity|]. split; [apply settled_ok; vm_compute; reflexivity|]. split; [exact C|]. split; [left; split; [exact T1|]; split; [apply orders_b; vm_compute; reflexivity|auto]|].
  split; [split; [intro X; rewrite X in T3; discriminate T3|apply Nat.ltb_lt; exact T4]|]. split; [apply Bytes.memb_In; exact T2|]. split; [exact CV|]. split; [intros ->; rewrite (proj2 (beq_eq _ _) eq_refl) in T5; discriminate T5|].
  split; [rewrite H, R1; reflexivity|]. split; [apply not_on_b; vm_compute; reflexivity|]. split; [apply modes_ok; exact R2|]. exact R3.
Qed.
