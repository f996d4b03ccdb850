(** Property theorems about what is told when a user is killed (C28, C31). *)
From Coq Require Import List Ascii String ZArith NArith Bool Lia Arith.
From Verif Require Import Bytes Match Lists ParseReq State Monad Core Write Info Chan Mode Msg Login Oper Server Dispatch Conn WF RelCmd Tree Live Observ HandLine Output HandDo HandSend HandCast HandNick HandJoined HandUmode HandKill HandKilled Sessions PropsUser PropsLogin PropsSend PropsMore PropsLink PropsNick PropsJoin PropsMode Spec SpecLink SpecNick SpecJoin SpecMode SpecKill.
Import ListNotations.

(** ** C28 *)
(** A KILL of a user [e] behind a linked server, given by an operator of this server or by a user behind a linked
    server: he is gone; every linked server except the source is told exactly once, by a KILL (and not by a QUIT
    too); every user of this server who shares a channel with him is told exactly once that he quits; nobody else is
    sent anything, except the notice to those who want to see such messages, who are left out here.
    (Users of this server who are killed: C28_kill_local_partial.) *)
Theorem C28_kill_partial : forall s i h c text name t u d g e b s', live s -> undisturbed s -> client_of s i h c -> acts s h c text "KILL" [name; t] u d -> nick_fits d -> settled d -> server_settled s ->
  (cl_type c = T_USER -> In "o"%char (cl_modes c)) -> the_client s name g e -> cl_type e = T_USER -> cl_conn e = None -> nick_fits e -> settled e -> (List.length t < 400)%nat -> ~ In NUL t ->
  Parse_Request i text s = Ok b s' ->
  let r := kill_reason c t in
  lookup g (s_heap s') = None /\
  forall j, is_open s j = true -> ~ warned s j ->
  (forall x, link s j x -> written s s' j (if (i =? j)%nat then [] else [relayed d (kill_text name r)])) /\
  (forall x, near s g j x -> written s s' j [line_from s e x (quit_text (to_users s e (Some r)))]) /\
  ((forall x, ~ link s j x) -> (forall x, ~ near s g j x) -> written s s' j []).
Proof. exact kill_told. Qed.
Print Assumptions C28_kill_partial.

(** A KILL of a user [e] of this server, who is on connection [q]: he is gone and his connection is closed; every
    linked server except the source is told exactly once by a KILL, and every linked server (the source too) exactly
    once that he quits; every other user of this server who shares a channel with him is told exactly once that he
    quits; nobody else is sent anything, except those with mode "s" or "c" or on &SERVER, who are left out here.  (What
    the killed user himself is sent is not covered.) *)
Theorem C28_kill_local_partial : forall s i h c text name t u d g e q b s', live s -> undisturbed s -> client_of s i h c -> acts s h c text "KILL" [name; t] u d -> nick_fits d -> settled d -> server_settled s ->
  (cl_type c = T_USER -> In "o"%char (cl_modes c)) -> the_client s name g e -> cl_type e = T_USER -> cl_conn e = Some q -> nick_fits e -> settled e -> (List.length t < 400)%nat -> ~ In NUL t ->
  Parse_Request i text s = Ok b s' ->
  let r := kill_reason c t in
  lookup g (s_heap s') = None /\ is_open s' q = false /\
  forall j, q <> j -> is_open s j = true -> ~ warned s j -> ~ watches s j ->
  (forall x, link s j x -> written s s' j ((if (i =? j)%nat then [] else [relayed d (kill_text name r)]) ++ [relayed e (quit_text r)])) /\
  (forall x, near s g j x -> written s s' j [line_from s e x (quit_text (to_users s e (Some r)))]) /\
  ((forall x, ~ link s j x) -> (forall x, ~ near s g j x) -> written s s' j []).
Proof. exact kill_local. Qed.
Print Assumptions C28_kill_local_partial.

(** ** C31 *)
(** When a cloaked user behind a linked server is killed, the others see the cloaked host name. *)
Theorem C31_kill_partial : forall s i h c text name t u d g e b s' v, live s -> undisturbed s -> client_of s i h c -> acts s h c text "KILL" [name; t] u d -> nick_fits d -> settled d -> server_settled s ->
  (cl_type c = T_USER -> In "o"%char (cl_modes c)) -> the_client s name g e -> cl_type e = T_USER -> cl_conn e = None -> nick_fits e -> In "x"%char (cl_modes e) -> cl_cloaked e = Some v -> (List.length t < 400)%nat -> ~ In NUL t ->
  Parse_Request i text s = Ok b s' ->
  forall j x, near s g j x -> is_open s j = true -> ~ warned s j -> written s s' j [line_with e v (quit_text (to_users s e (Some (kill_reason c t))))].
Proof.
  intros s i h c text name t u d g e b s' v L U C AC NF S SS OPR TC TE CN NE X CL LT NZ H j x NR OP NW.
  destruct (kill_told s i h c text name t u d g e b s' L U C AC NF S SS OPR TC TE CN NE ltac:(intros _ E; congruence) LT NZ H) as (_ & R).
  rewrite <- (cloaked_line s e x); [apply (R j OP NW); exact NR| |exact X|exact CL]. destruct NR as (y & ch & _ & _ & _ & _ & _ & T). exact T.
Qed.
Print Assumptions C31_kill_partial.

(** The same for a cloaked user of this server. *)
Theorem C31_kill_local_partial : forall s i h c text name t u d g e q b s' v, live s -> undisturbed s -> client_of s i h c -> acts s h c text "KILL" [name; t] u d -> nick_fits d -> settled d -> server_settled s ->
  (cl_type c = T_USER -> In "o"%char (cl_modes c)) -> the_client s name g e -> cl_type e = T_USER -> cl_conn e = Some q -> nick_fits e -> In "x"%char (cl_modes e) -> cl_cloaked e = Some v -> (List.length t < 400)%nat -> ~ In NUL t ->
  Parse_Request i text s = Ok b s' ->
  forall j x, near s g j x -> q <> j -> is_open s j = true -> ~ warned s j -> ~ watches s j -> written s s' j [line_with e v (quit_text (to_users s e (Some (kill_reason c t))))].
Proof.
  intros s i h c text name t u d g e q b s' v L U C AC NF S SS OPR TC TE CN NE X CL LT NZ H j x NR NQ OP NW NA.
  destruct (kill_local s i h c text name t u d g e q b s' L U C AC NF S SS OPR TC TE CN NE ltac:(intros _ E; congruence) LT NZ H) as (_ & _ & R).
  rewrite <- (cloaked_line s e x); [apply (R j NQ OP NW NA); exact NR| |exact X|exact CL]. destruct NR as (y & ch & _ & _ & _ & _ & _ & T). exact T.
Qed.
Print Assumptions C31_kill_local_partial.

(** ** examples *)
Definition warn_b (s : state) (j : connid) : bool :=
  forallb (fun p => negb (memb "s" (cl_modes (snd p))) || match cl_conn (snd p) with Some k => negb (Nat.eqb k j) | None => true end) (s_heap s) &&
  forallb (fun p => negb (caseeq (B "&SERVER") (ch_name (snd p))) || forallb (fun m => negb (Nat.eqb (mb_chan m) (fst p))) (s_members s)) (s_chans s).
Lemma warn_ok : forall s j, warn_b s j = true -> ~ warned s j.
Proof.
  intros s j H W. unfold warn_b in H. apply andb_true_iff in H. destruct H as [H1 H2]. rewrite forallb_forall in H1, H2. destruct W as [(g & x & K & K2 & K3)|(ch & k & m & nh & x & K & K2 & (y & K3 & K4 & K5) & _)].
  - rewrite lookup_assoc in K. apply assoc_In in K. specialize (H1 _ K). cbn [snd] in H1. apply Bytes.memb_In in K3. rewrite K3, K2, Nat.eqb_refl in H1. discriminate H1.
  - unfold exists_chan in K. rewrite lookup_assoc in K. apply assoc_In in K. specialize (H2 _ K). cbn [snd fst] in H2. apply same_name_iff in K2. rewrite K2 in H2. cbn [negb orb] in H2. rewrite forallb_forall in H2. specialize (H2 _ K3). rewrite K5, Nat.eqb_refl in H2. discriminate H2.
Qed.
(** alice is an operator *)
Notation st_op2 := (final conf0 [peer; peer2] (two_users ++ Sessions.link ++ link2 ++ [E_Data 5 (crlf "OPER root secret"); E_Time 2030 7])).
Lemma st_op2_reachable : reachable st_op2.
Proof. apply reach_final; [exact conf0_ok|vm_compute; reflexivity]. Qed.
(** she kills carol, who is behind the server on connection 7 and on a channel with alice and bob *)
Example C28_kill_nonvacuous : exists c e s', let alice := named "alice" st_op2 in let carol := named "carol" st_op2 in
  live st_op2 /\ undisturbed st_op2 /\ client_of st_op2 5 alice c /\ acts st_op2 alice c (B "KILL Carol :spam") "KILL" [B "Carol"; B "spam"] alice c /\ nick_fits c /\ settled c /\ server_settled st_op2 /\
  In "o"%char (cl_modes c) /\ the_client st_op2 (B "Carol") carol e /\ cl_type e = T_USER /\ cl_conn e = None /\ nick_fits e /\ settled e /\
  (exists x, link st_op2 7 x) /\ (exists x, link st_op2 8 x) /\ (exists x, near st_op2 carol 6 x) /\ (forall j, In j [6; 7; 8]%nat -> ~ warned st_op2 j) /\
  Parse_Request 5 (B "KILL Carol :spam") st_op2 = Ok CONNECTED s' /\ sends 7 ":alice KILL Carol :KILLed by alice: spam" s' = true /\ sends 8 ":alice KILL Carol :KILLed by alice: spam" s' = true /\ more 6 1 st_op2 s' = true /\ more 7 1 st_op2 s' = true /\ more 8 1 st_op2 s' = true.
Proof.
  destruct (serves_ok st_op2 5 (named "alice" st_op2) (fun c => plain_user c && memb "o" (cl_modes c))) as (c & C & T); [vm_compute; reflexivity|]. rewrite andb_true_iff in T. destruct T as [T P]. apply plain_user_ok in T. destruct T as (T & T2 & T3).
  destruct (has_ok st_op2 (named "carol" st_op2) (fun d => plain_user d && negb (is_some (cl_conn d)))) as (e & D1 & D2); [vm_compute; reflexivity|]. rewrite andb_true_iff, negb_true_iff in D2. destruct D2 as [D2 P2]. apply plain_user_ok in D2. destruct D2 as (D2 & D3 & D4).
  destruct (doing_ok _ (Parse_Request 5 (B "KILL Carol :spam")) st_op2 (fun b s => b && sends 7 ":alice KILL Carol :KILLed by alice: spam" s && sends 8 ":alice KILL Carol :KILLed by alice: spam" s && more 6 1 st_op2 s && more 7 1 st_op2 s && more 8 1 st_op2 s)) as (b & s' & H & R); [vm_compute; reflexivity|]. rewrite !andb_true_iff in R. destruct R as [[[[[R1 R2] R3] R4] R5] R6].
  exists c, e, s'. cbv zeta. split; [apply V_reach; exact st_op2_reachable|]. split; [apply calm_ok; vm_compute; reflexivity|]. split; [exact C|]. split; [left; split; [exact T|]; split; [apply orders_b; vm_compute; reflexivity|auto]|]. split; [exact T3|]. split; [exact T2|]. split; [apply settled_ok; vm_compute; reflexivity|].
  split; [apply Bytes.memb_In; exact P|]. split; [apply the_client_ok; [exact D1|vm_compute; reflexivity]|]. split; [exact D2|]. split; [destruct (cl_conn e); [discriminate P2|reflexivity]|]. split; [exact D4|]. split; [exact D3|].
  split; [apply (link_is_ok _ _ (named "hub.example.net" st_op2)); vm_compute; reflexivity|]. split; [apply (link_is_ok _ _ (named "other.example.net" st_op2)); vm_compute; reflexivity|].
  split; [apply (near_ok _ _ (named "bob" st_op2) (cnamed "#Test" st_op2)); vm_compute; reflexivity|]. split; [intros j I; cbn in I; destruct I as [<- |[<- |[<- |[]]]]; apply warn_ok; vm_compute; reflexivity|].
  split; [rewrite H, R1; reflexivity|auto].
Qed.
(** carol kills dave; both are behind the server on connection 7 *)
Example C28_kill_remote_nonvacuous : exists c d e s', let hub := named "hub.example.net" st_two in let carol := named "carol" st_two in let dave := named "dave" st_two in
  live st_two /\ undisturbed st_two /\ client_of st_two 7 hub c /\ acts st_two hub c (B ":carol KILL dave :spam") "KILL" [B "dave"; B "spam"] carol d /\ nick_fits d /\ settled d /\ server_settled st_two /\
  cl_type c = T_SERVER /\ the_client st_two (B "dave") dave e /\ cl_type e = T_USER /\ cl_conn e = None /\ nick_fits e /\ settled e /\
  (exists x, link st_two 7 x) /\ (exists x, link st_two 8 x) /\ (exists x, near st_two dave 5 x) /\ (exists x, near st_two dave 6 x) /\ (forall j, In j [5; 6; 7; 8]%nat -> ~ warned st_two j) /\
  Parse_Request 7 (B ":carol KILL dave :spam") st_two = Ok CONNECTED s' /\ sends 8 ":carol KILL dave :spam" s' = true /\ more 7 0 st_two s' = true /\ more 8 1 st_two s' = true /\ more 5 1 st_two s' = true /\ more 6 1 st_two s' = true.
Proof.
  destruct (serves_ok st_two 7 (named "hub.example.net" st_two) (type_b T_SERVER)) as (c & C & T); [vm_compute; reflexivity|]. apply type_b_ok in T.
  destruct (has_ok st_two (named "carol" st_two) plain_user) as (d & K1 & K2); [vm_compute; reflexivity|]. apply plain_user_ok in K2. destruct K2 as (K2 & K3 & K4).
  destruct (has_ok st_two (named "dave" st_two) (fun d => plain_user d && negb (is_some (cl_conn d)))) as (e & D1 & D2); [vm_compute; reflexivity|]. rewrite andb_true_iff, negb_true_iff in D2. destruct D2 as [D2 P2]. apply plain_user_ok in D2. destruct D2 as (D2 & D3 & D4).
  destruct (doing_ok _ (Parse_Request 7 (B ":carol KILL dave :spam")) st_two (fun b s => b && sends 8 ":carol KILL dave :spam" s && more 7 0 st_two s && more 8 1 st_two s && more 5 1 st_two s && more 6 1 st_two s)) as (b & s' & H & R); [vm_compute; reflexivity|]. rewrite !andb_true_iff in R. destruct R as [[[[[R1 R2] R3] R4] R5] R6].
  exists c, d, e, s'. cbv zeta. split; [apply V_reach; exact st_two_reachable|]. split; [apply calm_ok; vm_compute; reflexivity|]. split; [exact C|]. split; [apply acts_ok; [apply C|exact K1|vm_compute; reflexivity]|]. split; [exact K4|]. split; [exact K3|]. split; [apply settled_ok; vm_compute; reflexivity|].
  split; [exact T|]. split; [apply the_client_ok; [exact D1|vm_compute; reflexivity]|]. split; [exact D2|]. split; [destruct (cl_conn e); [discriminate P2|reflexivity]|]. split; [exact D4|]. split; [exact D3|].
  split; [apply (link_is_ok _ _ (named "hub.example.net" st_two)); vm_compute; reflexivity|]. split; [apply (link_is_ok _ _ (named "other.example.net" st_two)); vm_compute; reflexivity|].
  split; [apply (near_ok _ _ (named "alice" st_two) (cnamed "#Test" st_two)); vm_compute; reflexivity|]. split; [apply (near_ok _ _ (named "bob" st_two) (cnamed "#Test" st_two)); vm_compute; reflexivity|]. split; [intros j I; cbn in I; destruct I as [<- |[<- |[<- |[<- |[]]]]]; apply warn_ok; vm_compute; reflexivity|].
  split; [rewrite H, R1; reflexivity|auto].
Qed.
(** the same when dave is cloaked *)
Notation st_cloak4 := (final conf0 [peer; peer2] (two_users ++ Sessions.link ++ link2 ++ [E_Data 7 (crlf ":hub.example.net MODE dave +x"); E_Time 2030 7; E_Data 7 (crlf ":dave PRIVMSG #test :hello"); E_Time 2040 7])).
Lemma st_cloak4_reachable : reachable st_cloak4.
Proof. apply reach_final; [exact conf0_ok|vm_compute; reflexivity]. Qed.
Example C31_kill_nonvacuous : exists c d e v s', let hub := named "hub.example.net" st_cloak4 in let carol := named "carol" st_cloak4 in let dave := named "dave" st_cloak4 in
  live st_cloak4 /\ undisturbed st_cloak4 /\ client_of st_cloak4 7 hub c /\ acts st_cloak4 hub c (B ":carol KILL dave :spam") "KILL" [B "dave"; B "spam"] carol d /\ nick_fits d /\ settled d /\ server_settled st_cloak4 /\
  cl_type c = T_SERVER /\ the_client st_cloak4 (B "dave") dave e /\ cl_type e = T_USER /\ cl_conn e = None /\ nick_fits e /\ In "x"%char (cl_modes e) /\ cl_cloaked e = Some v /\ v <> cl_host e /\
  (exists x, near st_cloak4 dave 5 x) /\ ~ warned st_cloak4 5 /\
  Parse_Request 7 (B ":carol KILL dave :spam") st_cloak4 = Ok CONNECTED s' /\ existsb (fun p => Nat.eqb (fst p) 5 && beq (snd p) (line_with e v (B "QUIT :spam"))) (s_out s') = true.
Proof.
  destruct (serves_ok st_cloak4 7 (named "hub.example.net" st_cloak4) (type_b T_SERVER)) as (c & C & T); [vm_compute; reflexivity|]. apply type_b_ok in T.
  destruct (has_ok st_cloak4 (named "carol" st_cloak4) plain_user) as (d & K1 & K2); [vm_compute; reflexivity|]. apply plain_user_ok in K2. destruct K2 as (K2 & K3 & K4).
  destruct (has_ok st_cloak4 (named "dave" st_cloak4) (fun d => type_b T_USER d && memb "x" (cl_modes d) && negb (beq (cl_id d) []) && Nat.ltb (List.length (cl_id d)) 32 && negb (is_some (cl_conn d)) &&
     match cl_cloaked d with Some v => negb (beq v (cl_host d)) && doing (Parse_Request 7 (B ":carol KILL dave :spam")) st_cloak4 (fun b s => b && existsb (fun p => Nat.eqb (fst p) 5 && beq (snd p) (line_with d v (B "QUIT :spam"))) (s_out s)) | None => false end)) as (e & D1 & D2); [vm_compute; reflexivity|].
  rewrite !andb_true_iff, !negb_true_iff in D2. destruct D2 as [[[[[T1 T2] T3] T4] P2] T5]. apply type_b_ok in T1. destruct (cl_cloaked e) as [v|] eqn:CV; [|discriminate T5]. rewrite andb_true_iff, negb_true_iff in T5. destruct T5 as [T5 T7].
  apply doing_ok in T7. destruct T7 as (b & s' & H & R). rewrite !andb_true_iff in R. destruct R as [R1 R3].
  exists c, d, e, v, s'. cbv zeta. split; [apply V_reach; exact st_cloak4_reachable|]. split; [apply calm_ok; vm_compute; reflexivity|]. split; [exact C|]. split; [apply acts_ok; [apply C|exact K1|vm_compute; reflexivity]|]. split; [exact K4|]. split; [exact K3|]. split; [apply settled_ok; vm_compute; reflexivity|].
  split; [exact T|]. split; [apply the_client_ok; [exact D1|vm_compute; reflexivity]|]. split; [exact T1|]. split; [destruct (cl_conn e); [discriminate P2|reflexivity]|].
  split; [split; [intro X; rewrite X in T3; discriminate T3|apply Nat.ltb_lt; exact T4]|]. split; [apply Bytes.memb_In; exact T2|]. split; [exact CV|]. split; [intros ->; rewrite (proj2 (beq_eq _ _) eq_refl) in T5; discriminate T5|].
  split; [apply (near_ok _ _ (named "alice" st_cloak4) (cnamed "#Test" st_cloak4)); vm_compute; reflexivity|]. split; [apply warn_ok; vm_compute; reflexivity|]. split; [rewrite H, R1; reflexivity|exact R3].
Qed.

(** alice kills bob: the servers get the KILL and the QUIT, alice one line *)
Example C28_kill_local_nonvacuous : exists c e s', let alice := named "alice" st_op2 in let bob := named "bob" st_op2 in
  live st_op2 /\ undisturbed st_op2 /\ client_of st_op2 5 alice c /\ acts st_op2 alice c (B "KILL Bob :spam") "KILL" [B "Bob"; B "spam"] alice c /\ nick_fits c /\ settled c /\ server_settled st_op2 /\
  In "o"%char (cl_modes c) /\ the_client st_op2 (B "Bob") bob e /\ cl_type e = T_USER /\ cl_conn e = Some 6 /\ nick_fits e /\ settled e /\
  (exists x, link st_op2 7 x) /\ (exists x, link st_op2 8 x) /\ (exists x, near st_op2 bob 5 x) /\ (forall j, In j [5; 7; 8]%nat -> is_open st_op2 j = true /\ ~ warned st_op2 j /\ ~ watches st_op2 j) /\
  Parse_Request 5 (B "KILL Bob :spam") st_op2 = Ok CONNECTED s' /\ sends 7 ":alice KILL Bob :KILLed by alice: spam" s' = true /\ sends 7 ":bob QUIT :KILLed by alice: spam" s' = true /\ sends 8 ":bob QUIT :KILLed by alice: spam" s' = true /\ more 5 1 st_op2 s' = true /\ more 7 2 st_op2 s' = true /\ more 8 2 st_op2 s' = true.
Proof.
  destruct (serves_ok st_op2 5 (named "alice" st_op2) (fun c => plain_user c && memb "o" (cl_modes c))) as (c & C & T); [vm_compute; reflexivity|]. rewrite andb_true_iff in T. destruct T as [T P]. apply plain_user_ok in T. destruct T as (T & T2 & T3).
  destruct (has_ok st_op2 (named "bob" st_op2) (fun d => plain_user d && match cl_conn d with Some k => Nat.eqb k 6 | None => false end)) as (e & D1 & D2); [vm_compute; reflexivity|]. rewrite andb_true_iff in D2. destruct D2 as [D2 P2]. apply plain_user_ok in D2. destruct D2 as (D2 & D3 & D4).
  destruct (doing_ok _ (Parse_Request 5 (B "KILL Bob :spam")) st_op2 (fun b s => b && sends 7 ":alice KILL Bob :KILLed by alice: spam" s && sends 7 ":bob QUIT :KILLed by alice: spam" s && sends 8 ":bob QUIT :KILLed by alice: spam" s && more 5 1 st_op2 s && more 7 2 st_op2 s && more 8 2 st_op2 s)) as (b & s' & H & R); [vm_compute; reflexivity|]. rewrite !andb_true_iff in R. destruct R as [[[[[[R1 R2] R3] R4] R5] R6] R7].
  exists c, e, s'. cbv zeta. split; [apply V_reach; exact st_op2_reachable|]. split; [apply calm_ok; vm_compute; reflexivity|]. split; [exact C|]. split; [left; split; [exact T|]; split; [apply orders_b; vm_compute; reflexivity|auto]|]. split; [exact T3|]. split; [exact T2|]. split; [apply settled_ok; vm_compute; reflexivity|].
  split; [apply Bytes.memb_In; exact P|]. split; [apply the_client_ok; [exact D1|vm_compute; reflexivity]|]. split; [exact D2|]. split; [destruct (cl_conn e) as [k|]; [apply Nat.eqb_eq in P2; subst k; reflexivity|discriminate P2]|]. split; [exact D4|]. split; [exact D3|].
  split; [apply (link_is_ok _ _ (named "hub.example.net" st_op2)); vm_compute; reflexivity|]. split; [apply (link_is_ok _ _ (named "other.example.net" st_op2)); vm_compute; reflexivity|].
  split; [apply (near_ok _ _ (named "alice" st_op2) (cnamed "#Test" st_op2)); vm_compute; reflexivity|]. split; [intros j I; cbn in I; destruct I as [<- |[<- |[<- |[]]]]; (split; [vm_compute; reflexivity|]; split; [apply warn_ok|apply watch_ok]; vm_compute; reflexivity)|].
  split; [rewrite H, R1; reflexivity|auto 10].
Qed.
(** carol, who is behind the server on connection 7, kills bob, who is cloaked *)
Notation st_cloak5 := (final conf0 [peer; peer2] (two_users ++ Sessions.link ++ link2 ++ [E_Data 7 (crlf ":hub.example.net MODE bob +x"); E_Time 2030 7; E_Data 6 (crlf "PRIVMSG #test :hello"); E_Time 2040 7])).
Lemma st_cloak5_reachable : reachable st_cloak5.
Proof. apply reach_final; [exact conf0_ok|vm_compute; reflexivity]. Qed.
Example C31_kill_local_nonvacuous : exists c d e v s', let hub := named "hub.example.net" st_cloak5 in let carol := named "carol" st_cloak5 in let bob := named "bob" st_cloak5 in
  live st_cloak5 /\ undisturbed st_cloak5 /\ client_of st_cloak5 7 hub c /\ acts st_cloak5 hub c (B ":carol KILL bob :spam") "KILL" [B "bob"; B "spam"] carol d /\ nick_fits d /\ settled d /\ server_settled st_cloak5 /\
  cl_type c = T_SERVER /\ the_client st_cloak5 (B "bob") bob e /\ cl_type e = T_USER /\ cl_conn e = Some 6 /\ nick_fits e /\ In "x"%char (cl_modes e) /\ cl_cloaked e = Some v /\ v <> cl_host e /\
  (exists x, near st_cloak5 bob 5 x) /\ is_open st_cloak5 5 = true /\ ~ warned st_cloak5 5 /\ ~ watches st_cloak5 5 /\
  Parse_Request 7 (B ":carol KILL bob :spam") st_cloak5 = Ok CONNECTED s' /\ existsb (fun p => Nat.eqb (fst p) 5 && beq (snd p) (line_with e v (B "QUIT :spam"))) (s_out s') = true.
Proof.
  destruct (serves_ok st_cloak5 7 (named "hub.example.net" st_cloak5) (type_b T_SERVER)) as (c & C & T); [vm_compute; reflexivity|]. apply type_b_ok in T.
  destruct (has_ok st_cloak5 (named "carol" st_cloak5) plain_user) as (d & K1 & K2); [vm_compute; reflexivity|]. apply plain_user_ok in K2. destruct K2 as (K2 & K3 & K4).
  destruct (has_ok st_cloak5 (named "bob" st_cloak5) (fun d => type_b T_USER d && memb "x" (cl_modes d) && negb (beq (cl_id d) []) && Nat.ltb (List.length (cl_id d)) 32 && match cl_conn d with Some k => Nat.eqb k 6 | None => false end &&
     match cl_cloaked d with Some v => negb (beq v (cl_host d)) && doing (Parse_Request 7 (B ":carol KILL bob :spam")) st_cloak5 (fun b s => b && existsb (fun p => Nat.eqb (fst p) 5 && beq (snd p) (line_with d v (B "QUIT :spam"))) (s_out s)) | None => false end)) as (e & D1 & D2); [vm_compute; reflexivity|].
  rewrite !andb_true_iff, !negb_true_iff in D2. destruct D2 as [[[[[T1 T2] T3] T4] P2] T5]. apply type_b_ok in T1. destruct (cl_cloaked e) as [v|] eqn:CV; [|discriminate T5]. rewrite andb_true_iff, negb_true_iff in T5. destruct T5 as [T5 T7].
  apply doing_ok in T7. destruct T7 as (b & s' & H & R). rewrite !andb_true_iff in R. destruct R as [R1 R3].
  exists c, d, e, v, s'. cbv zeta. split; [apply V_reach; exact st_cloak5_reachable|]. split; [apply calm_ok; vm_compute; reflexivity|]. split; [exact C|]. split; [apply acts_ok; [apply C|exact K1|vm_compute; reflexivity]|]. split; [exact K4|]. split; [exact K3|]. split; [apply settled_ok; vm_compute; reflexivity|].
  split; [exact T|]. split; [apply the_client_ok; [exact D1|vm_compute; reflexivity]|]. split; [exact T1|]. split; [destruct (cl_conn e) as [k|]; [apply Nat.eqb_eq in P2; subst k; reflexivity|discriminate P2]|].
  split; [split; [intro X; rewrite X in T3; discriminate T3|apply Nat.ltb_lt; exact T4]|]. split; [apply Bytes.memb_In; exact T2|]. split; [exact CV|]. split; [intros ->; rewrite (proj2 (beq_eq _ _) eq_refl) in T5; discriminate T5|].
  split; [apply (near_ok _ _ (named "alice" st_cloak5) (cnamed "#Test" st_cloak5)); vm_compute; reflexivity|]. split; [vm_compute; reflexivity|]. split; [apply warn_ok; vm_compute; reflexivity|]. split; [apply watch_ok; vm_compute; reflexivity|]. split; [rewrite H, R1; reflexivity|exact R3].
Qed.
