(** Property theorems about messages: who gets them, and what exactly. *)
From Coq Require Import List Ascii String ZArith NArith Bool Lia Arith.
From Verif Require Import Bytes Lists ParseReq MatchSpec State Monad Core Write Info Chan Mode Msg Login Oper Server Dispatch Conn WF Tree Live Spec Observ HandLine HandGain HandLogin Output HandDo HandCap HandSend Sessions PropsUser PropsLogin.
Import ListNotations.

(** ** C16 *)
(** A PRIVMSG or NOTICE of a user to a channel on which the rules ([may_speak]) do not allow him to speak is not
    relayed: the only line that is written, to any connection at all, is the answer to the sender (and none
    is written for a NOTICE). *)
Theorem C16_not_relayed : forall s i h c text n name msg b s' ch k me, live s -> undisturbed s -> client_of s i h c -> cl_type c = T_USER -> settled c ->
  lookup This_Server (s_heap s) = Some me -> ~ In "x"%char (cl_modes me) -> orders s text n [name; msg] -> In n ["PRIVMSG"; "NOTICE"]%string -> msg <> [] -> only_channel s name -> the_channel s name ch k -> Parse_Request i text s = Ok b s' ->
  ~ may_speak s h c ch k -> forall j, written s s' j (if (i =? j)%nat && String.eqb n "PRIVMSG" && is_open s i then [on_wire (":"%char :: cl_id me ++ " "%char :: refusal k c)] else []).
Proof. intros s i h c text n name msg b s' ch k me H1 H2 H3 H4 H5 H6 H7 H8 H9 H10 H11 H12 H13. exact (proj2 (chan_message s i h c text n name msg b s' ch k me H1 H2 H3 H4 H5 H6 H7 H8 H9 H10 H11 H12 H13)). Qed.
Print Assumptions C16_not_relayed.

(** ** C17 *)
(** If the rules allow him to speak, then exactly the open connections through which another member of the
    channel is reached get the message, once, and no other connection gets anything. *)
Theorem C17_relayed : forall s i h c text n name msg b s' ch k me, live s -> undisturbed s -> client_of s i h c -> cl_type c = T_USER -> settled c ->
  lookup This_Server (s_heap s) = Some me -> ~ In "x"%char (cl_modes me) -> orders s text n [name; msg] -> In n ["PRIVMSG"; "NOTICE"]%string -> msg <> [] -> only_channel s name -> the_channel s name ch k -> Parse_Request i text s = Ok b s' ->
  may_speak s h c ch k -> forall j, (is_open s j = true -> forall d, goes_to s h ch j d -> written s s' j [line_from s c d (speech (B n) (ch_name k) msg)]) /\
                                    ((is_open s j = true -> forall d, ~ goes_to s h ch j d) -> written s s' j []).
Proof. intros s i h c text n name msg b s' ch k me H1 H2 H3 H4 H5 H6 H7 H8 H9 H10 H11 H12 H13. exact (proj1 (chan_message s i h c text n name msg b s' ch k me H1 H2 H3 H4 H5 H6 H7 H8 H9 H10 H11 H12 H13)). Qed.
Print Assumptions C17_relayed.

(** ** C41 *)
Theorem C41_delivered : forall s i h c text n t msg b s' g d me, live s -> undisturbed s -> client_of s i h c -> cl_type c = T_USER -> settled c -> is_open s i = true ->
  lookup This_Server (s_heap s) = Some me -> ~ In "x"%char (cl_modes me) -> orders s text n [t; msg] -> In n ["PRIVMSG"; "NOTICE"]%string -> msg <> [] -> t <> [] -> (forall x, In x t -> ~ In x (B ",!")) ->
  the_client s t g d -> In (cl_type d) [T_USER; T_SERVICE] -> Parse_Request i text s = Ok b s' ->
  may_reach s h c g d -> exists x dx j, next_hop s g x /\ lookup x (s_heap s) = Some dx /\ cl_conn dx = Some j /\ forall k, written s s' k
    ((if (i =? k)%nat && String.eqb n "PRIVMSG" && memb "a" (cl_modes d) then [on_wire (":"%char :: cl_id me ++ " "%char :: away_reply c d)] else []) ++
     (if (j =? k)%nat && is_open s j then [line_from s c dx (speech (B n) (cl_id d) msg)] else [])).
Proof. intros s i h c text n t msg b s' g d me H1 H2 H3 H4 H5 H6 H7 H8 H9 H10 H11 H12 H13 H14 H15 H16. exact (proj1 (priv_message s i h c text n t msg b s' g d me H1 H2 H3 H4 H5 H6 H7 H8 H9 H10 H11 H12 H13 H14 H15 H16)). Qed.
Print Assumptions C41_delivered.
Theorem C41_refused : forall s i h c text n t msg b s' g d me, live s -> undisturbed s -> client_of s i h c -> cl_type c = T_USER -> settled c -> is_open s i = true ->
  lookup This_Server (s_heap s) = Some me -> ~ In "x"%char (cl_modes me) -> orders s text n [t; msg] -> In n ["PRIVMSG"; "NOTICE"]%string -> msg <> [] -> t <> [] -> (forall x, In x t -> ~ In x (B ",!")) ->
  the_client s t g d -> In (cl_type d) [T_USER; T_SERVICE] -> Parse_Request i text s = Ok b s' ->
  ~ may_reach s h c g d -> forall k, written s s' k (if (i =? k)%nat && String.eqb n "PRIVMSG" then [on_wire (":"%char :: cl_id me ++ " "%char :: refusal_of c d)] else []).
Proof. intros s i h c text n t msg b s' g d me H1 H2 H3 H4 H5 H6 H7 H8 H9 H10 H11 H12 H13 H14 H15 H16. exact (proj2 (priv_message s i h c text n t msg b s' g d me H1 H2 H3 H4 H5 H6 H7 H8 H9 H10 H11 H12 H13 H14 H15 H16)). Qed.
Print Assumptions C41_refused.

(** ** examples *)
Definition chars_b (bad : bytes) (t : bytes) : bool := forallb (fun x => negb (memb x bad)) t.
Lemma chars_ok : forall bad t, chars_b bad t = true -> forall x, In x t -> ~ In x bad.
Proof. intros bad t H x I. unfold chars_b in H. rewrite forallb_forall in H. specialize (H _ I). apply negb_true_iff in H. apply not_In_b. exact H. Qed.
Definition all_known (s : state) (f : handle -> client -> bool) : bool := forallb (fun h => match lookup h (s_heap s) with Some c => f h c | None => true end) (s_clients s).
Lemma all_known_ok : forall s f, all_known s f = true -> forall h c, known s h c -> f h c = true.
Proof. intros s f H h c [I A]. unfold all_known in H. rewrite forallb_forall in H. specialize (H _ I). rewrite A in H. exact H. Qed.
Definition name_b (a b : bytes) : bool := beq (map lower_char a) (map lower_char b).
Lemma name_b_ok : forall a b, name_b a b = true <-> same_name a b.
Proof. intros a b. unfold name_b, same_name. apply beq_eq. Qed.
Definition only_channel_b (s : state) (name : bytes) : bool :=
  negb (beq name []) && chars_b (B ",!@%") name && all_known s (fun _ c => negb (name_b (cl_id c) (nick_part name)) && negb (name_b name (user_of c))).
Lemma only_channel_ok : forall s name, only_channel_b s name = true -> only_channel s name.
Proof.
  intros s name H. unfold only_channel_b in H. rewrite !andb_true_iff in H. destruct H as [[H1 H2] H3]. pose proof (all_known_ok _ _ H3) as K. split; [intro E; subst; discriminate H1|]. split; [apply chars_ok; exact H2|].
  assert (Q : forall h c, known s h c -> ~ same_name (cl_id c) (nick_part name) /\ ~ same_name name (user_of c)). { intros h c I. specialize (K _ _ I). cbv beta in K. apply andb_true_iff in K. rewrite !negb_true_iff in K. destruct K as [K1 K2]. split; intro E; apply name_b_ok in E; congruence. }
  split; [intros h (c & I & E); destruct (Q _ _ I); contradiction|]. intros h c I. apply (Q _ _ I).
Qed.
Definition the_channel_b (s : state) (name : bytes) (ch : chandle) (k : channel) : bool := name_b name (ch_name k) && forallb (fun p => negb (name_b name (ch_name (snd p))) || Nat.eqb (fst p) ch) (s_chans s).
Lemma the_channel_ok : forall s name ch k, exists_chan s ch k -> the_channel_b s name ch k = true -> the_channel s name ch k.
Proof.
  intros s name ch k E H. unfold the_channel_b in H. apply andb_true_iff in H. destruct H as [H1 H2]. split; auto. split; [apply name_b_ok; auto|]. intros ch' k' E' SN. rewrite forallb_forall in H2. assert (I : In (ch', k') (s_chans s)). { unfold exists_chan in E'. rewrite lookup_assoc in E'. apply assoc_In. exact E'. }
  specialize (H2 _ I). cbn [fst snd] in H2. apply name_b_ok in SN. rewrite SN in H2. apply Nat.eqb_eq. exact H2.
Qed.
(** alice may speak on #Test; bob, carol and dave, who are both behind hub, are the other members *)
Example C17_nonvacuous : exists h c me ch k s', live st_link /\ undisturbed st_link /\ client_of st_link 5 h c /\ cl_type c = T_USER /\ settled c /\ lookup This_Server (s_heap st_link) = Some me /\ ~ In "x"%char (cl_modes me) /\
  orders st_link (B "privmsg #TEST :Hello all") "PRIVMSG" [B "#TEST"; B "Hello all"] /\ only_channel st_link (B "#TEST") /\ the_channel st_link (B "#TEST") ch k /\ may_speak st_link h c ch k /\
  Parse_Request 5 (B "privmsg #TEST :Hello all") st_link = Ok CONNECTED s' /\
  sends 6 ":alice!~alice@1.2.3.4 PRIVMSG #Test :Hello all" s' = true /\ sends 7 ":alice PRIVMSG #Test :Hello all" s' = true /\ sends 5 ":alice!~alice@1.2.3.4 PRIVMSG #Test :Hello all" s' = false.
Proof.
  destruct (serves_ok st_link 5 (named "alice" st_link) (fun c => type_b T_USER c && negb (memb "x" (cl_modes c)))) as (c & C & T); [vm_compute; reflexivity|]. apply andb_true_iff in T. destruct T as [T X]. apply type_b_ok in T. apply negb_true_iff in X.
  destruct (has_ok st_link This_Server (fun m => negb (memb "x" (cl_modes m)))) as (me & M1 & M2); [vm_compute; reflexivity|]. apply negb_true_iff in M2.
  destruct (chas_ok st_link (cnamed "#Test" st_link) (fun k => the_channel_b st_link (B "#TEST") (cnamed "#Test" st_link) k && beq (ch_modes k) [] && match ch_bans k with [] => true | _ => false end)) as (k & K & P); [vm_compute; reflexivity|]. rewrite !andb_true_iff in P. destruct P as [[P1 P2] P3]. apply beq_eq in P2.
  destruct (doing_ok _ (Parse_Request 5 (B "privmsg #TEST :Hello all")) st_link (fun b s => b && sends 6 ":alice!~alice@1.2.3.4 PRIVMSG #Test :Hello all" s && sends 7 ":alice PRIVMSG #Test :Hello all" s && negb (sends 5 ":alice!~alice@1.2.3.4 PRIVMSG #Test :Hello all" s))) as (b & s' & H & R); [vm_compute; reflexivity|]. rewrite !andb_true_iff, negb_true_iff in R. destruct R as [[[R1 R2] R3] R4].
  exists (named "alice" st_link), c, me, (cnamed "#Test" st_link), k, s'. split; [apply V_reach; exact st_link_reachable|]. split; [apply calm_ok; vm_compute; reflexivity|]. split; [exact C|]. split; [exact T|]. split; [intro I; destruct (not_In_b _ _ X I)|]. split; [destruct M1; assumption|]. split; [apply not_In_b; exact M2|].
  split; [apply orders_b; vm_compute; reflexivity|]. split; [apply only_channel_ok; vm_compute; reflexivity|]. split; [apply the_channel_ok; auto|].
  split. { split; [rewrite P2; intros []|]. split; [rewrite P2; intros []|]. right. split; [rewrite P2; intros []|]. destruct (ch_bans k); [intros (e & [] & _)|discriminate P3]. }
  split; [rewrite H, R1; reflexivity|]. split; [exact R2|]. split; [exact R3|exact R4].
Qed.
(** bob has no voice on the moderated channel *)
Notation st_mod := (final conf0 [peer] (two_users ++ link ++ [E_Time 2020 7; E_Data 5 (crlf "MODE #test +m"); E_Time 2030 7])).
Lemma st_mod_reachable : reachable st_mod.
Proof. apply reach_final; [exact conf0_ok|vm_compute; reflexivity]. Qed.
Definition silent_b (s : state) (h : handle) (ch : chandle) : bool := forallb (fun m => negb (Nat.eqb (mb_client m) h && Nat.eqb (mb_chan m) ch) || beq (mb_modes m) []) (s_members s).
Lemma silent_ok : forall s h ch, silent_b s h ch = true -> ~ voiced s h ch.
Proof. intros s h ch H (x & _ & m & I & E1 & E2 & J). unfold silent_b in H. rewrite forallb_forall in H. specialize (H _ I). rewrite E1, E2, !Nat.eqb_refl in H. cbn in H. apply beq_eq in H. rewrite H in J. destruct J. Qed.
Example C16_nonvacuous : exists h c me ch k s', live st_mod /\ undisturbed st_mod /\ client_of st_mod 6 h c /\ cl_type c = T_USER /\ settled c /\ lookup This_Server (s_heap st_mod) = Some me /\ ~ In "x"%char (cl_modes me) /\
  orders st_mod (B "PRIVMSG #Test :Hello all") "PRIVMSG" [B "#Test"; B "Hello all"] /\ only_channel st_mod (B "#Test") /\ the_channel st_mod (B "#Test") ch k /\ ~ may_speak st_mod h c ch k /\ is_on st_mod h ch /\ is_open st_mod 6 = true /\
  Parse_Request 6 (B "PRIVMSG #Test :Hello all") st_mod = Ok CONNECTED s' /\ sends 6 ":irc.example.net 404 bob #Test :Cannot send to channel" s' = true.
Proof.
  destruct (serves_ok st_mod 6 (named "bob" st_mod) (fun c => type_b T_USER c && negb (memb "x" (cl_modes c)))) as (c & C & T); [vm_compute; reflexivity|]. apply andb_true_iff in T. destruct T as [T X]. apply type_b_ok in T. apply negb_true_iff in X.
  destruct (has_ok st_mod This_Server (fun m => negb (memb "x" (cl_modes m)))) as (me & M1 & M2); [vm_compute; reflexivity|]. apply negb_true_iff in M2.
  destruct (chas_ok st_mod (cnamed "#Test" st_mod) (fun k => the_channel_b st_mod (B "#Test") (cnamed "#Test" st_mod) k && memb "m" (ch_modes k))) as (k & K & P); [vm_compute; reflexivity|]. rewrite !andb_true_iff in P. destruct P as [P1 P2].
  destruct (doing_ok _ (Parse_Request 6 (B "PRIVMSG #Test :Hello all")) st_mod (fun b s => b && sends 6 ":irc.example.net 404 bob #Test :Cannot send to channel" s)) as (b & s' & H & R); [vm_compute; reflexivity|]. rewrite !andb_true_iff in R. destruct R as [R1 R2].
  exists (named "bob" st_mod), c, me, (cnamed "#Test" st_mod), k, s'. split; [apply V_reach; exact st_mod_reachable|]. split; [apply calm_ok; vm_compute; reflexivity|]. split; [exact C|]. split; [exact T|]. split; [intro I; destruct (not_In_b _ _ X I)|]. split; [destruct M1; assumption|]. split; [apply not_In_b; exact M2|].
  split; [apply orders_b; vm_compute; reflexivity|]. split; [apply only_channel_ok; vm_compute; reflexivity|]. split; [apply the_channel_ok; auto|].
  split. { intros (_ & _ & [V|[V _]]); [revert V; apply silent_ok; vm_compute; reflexivity|]. apply V. apply Bytes.memb_In. exact P2. }
  split; [apply on_b_ok; vm_compute; reflexivity|]. split; [vm_compute; reflexivity|]. split; [rewrite H, R1; reflexivity|exact R2].
Qed.
Definition the_client_b (s : state) (t : bytes) (g : handle) : bool := has s g (fun c => name_b (cl_id c) (nick_part t)) && all_known s (fun h c => negb (name_b (cl_id c) (nick_part t)) || Nat.eqb h g).
Lemma the_client_ok : forall s t g d, known s g d -> the_client_b s t g = true -> the_client s t g d.
Proof.
  intros s t g d K H. unfold the_client_b in H. apply andb_true_iff in H. destruct H as [H1 H2]. apply has_ok in H1. destruct H1 as (c & K1 & E). split; auto. split; [exists c; split; auto; apply name_b_ok; auto|].
  intros g' (c' & K2 & E2). pose proof (all_known_ok _ _ H2 _ _ K2) as Q. cbv beta in Q. apply name_b_ok in E2. rewrite E2 in Q. apply Nat.eqb_eq. exact Q.
Qed.
(** bob is away *)
Notation st_away := (final conf0 [peer] (two_users ++ link ++ [E_Time 2020 7; E_Data 6 (crlf "AWAY :to lunch"); E_Time 2030 7; E_Data 6 (crlf "MODE bob +b"); E_Time 2040 7])).
Lemma st_away_reachable : reachable st_away.
Proof. apply reach_final; [exact conf0_ok|vm_compute; reflexivity]. Qed.
(** alice, who is not registered with services, may not reach bob, but she may reach dave, who is behind hub; and in [st_gone] bob is away *)
Notation st_gone := (final conf0 [peer] (two_users ++ link ++ [E_Time 2020 7; E_Data 6 (crlf "AWAY :to lunch"); E_Time 2030 7])).
Lemma st_gone_reachable : reachable st_gone.
Proof. apply reach_final; [exact conf0_ok|vm_compute; reflexivity]. Qed.
Example C41_nonvacuous : exists h c g d me s', live st_gone /\ undisturbed st_gone /\ client_of st_gone 5 h c /\ cl_type c = T_USER /\ settled c /\ is_open st_gone 5 = true /\ lookup This_Server (s_heap st_gone) = Some me /\ ~ In "x"%char (cl_modes me) /\
  orders st_gone (B "PRIVMSG BOB :Hi") "PRIVMSG" [B "BOB"; B "Hi"] /\ (forall x, In x (B "BOB") -> ~ In x (B ",!")) /\ the_client st_gone (B "BOB") g d /\ In (cl_type d) [T_USER; T_SERVICE] /\ may_reach st_gone h c g d /\ In "a"%char (cl_modes d) /\
  Parse_Request 5 (B "PRIVMSG BOB :Hi") st_gone = Ok CONNECTED s' /\ sends 6 ":alice!~alice@1.2.3.4 PRIVMSG bob :Hi" s' = true /\ sends 5 ":irc.example.net 301 alice bob :to lunch" s' = true.
Proof.
  destruct (serves_ok st_gone 5 (named "alice" st_gone) (fun c => type_b T_USER c && negb (memb "x" (cl_modes c)))) as (c & C & T); [vm_compute; reflexivity|]. apply andb_true_iff in T. destruct T as [T X]. apply type_b_ok in T. apply negb_true_iff in X.
  destruct (has_ok st_gone This_Server (fun m => negb (memb "x" (cl_modes m)))) as (me & M1 & M2); [vm_compute; reflexivity|]. apply negb_true_iff in M2.
  destruct (has_ok st_gone (named "bob" st_gone) (fun d => type_b T_USER d && memb "a" (cl_modes d) && negb (memb "b" (cl_modes d)) && negb (memb "C" (cl_modes d)))) as (d & D1 & D2); [vm_compute; reflexivity|]. rewrite !andb_true_iff, !negb_true_iff in D2. destruct D2 as [[[D2 D3] D4] D5]. apply type_b_ok in D2.
  destruct (doing_ok _ (Parse_Request 5 (B "PRIVMSG BOB :Hi")) st_gone (fun b s => b && sends 6 ":alice!~alice@1.2.3.4 PRIVMSG bob :Hi" s && sends 5 ":irc.example.net 301 alice bob :to lunch" s)) as (b & s' & H & R); [vm_compute; reflexivity|]. rewrite !andb_true_iff in R. destruct R as [[R1 R2] R3].
  exists (named "alice" st_gone), c, (named "bob" st_gone), d, me, s'. split; [apply V_reach; exact st_gone_reachable|]. split; [apply calm_ok; vm_compute; reflexivity|]. split; [exact C|]. split; [exact T|]. split; [intro I; destruct (not_In_b _ _ X I)|]. split; [vm_compute; reflexivity|]. split; [destruct M1; assumption|]. split; [apply not_In_b; exact M2|].
  split; [apply orders_b; vm_compute; reflexivity|]. split; [apply chars_ok; vm_compute; reflexivity|]. split; [apply the_client_ok; [exact D1|vm_compute; reflexivity]|]. split; [rewrite D2; left; reflexivity|].
  split. { split; intro I; [destruct (not_In_b _ _ D4 I)|destruct (not_In_b _ _ D5 I)]. }
  split; [apply Bytes.memb_In; exact D3|]. split; [rewrite H, R1; reflexivity|]. split; [exact R2|exact R3].
Qed.
Example C41_refused_nonvacuous : exists h c g d me s', live st_away /\ undisturbed st_away /\ client_of st_away 5 h c /\ cl_type c = T_USER /\ settled c /\ is_open st_away 5 = true /\ lookup This_Server (s_heap st_away) = Some me /\ ~ In "x"%char (cl_modes me) /\
  orders st_away (B "PRIVMSG bob :Hi") "PRIVMSG" [B "bob"; B "Hi"] /\ the_client st_away (B "bob") g d /\ In (cl_type d) [T_USER; T_SERVICE] /\ ~ may_reach st_away h c g d /\
  Parse_Request 5 (B "PRIVMSG bob :Hi") st_away = Ok CONNECTED s' /\ sends 6 ":alice!~alice@1.2.3.4 PRIVMSG bob :Hi" s' = false.
Proof.
  destruct (serves_ok st_away 5 (named "alice" st_away) (fun c => type_b T_USER c && negb (memb "x" (cl_modes c)) && negb (memb "R" (cl_modes c)) && negb (memb "o" (cl_modes c)))) as (c & C & T); [vm_compute; reflexivity|]. rewrite !andb_true_iff, !negb_true_iff in T. destruct T as [[[T X] T1] T2]. apply type_b_ok in T.
  destruct (has_ok st_away This_Server (fun m => negb (memb "x" (cl_modes m)))) as (me & M1 & M2); [vm_compute; reflexivity|]. apply negb_true_iff in M2.
  destruct (has_ok st_away (named "bob" st_away) (fun d => type_b T_USER d && memb "b" (cl_modes d))) as (d & D1 & D2); [vm_compute; reflexivity|]. rewrite !andb_true_iff in D2. destruct D2 as [D2 D3]. apply type_b_ok in D2.
  destruct (doing_ok _ (Parse_Request 5 (B "PRIVMSG bob :Hi")) st_away (fun b s => b && negb (sends 6 ":alice!~alice@1.2.3.4 PRIVMSG bob :Hi" s))) as (b & s' & H & R); [vm_compute; reflexivity|]. rewrite !andb_true_iff, negb_true_iff in R. destruct R as [R1 R2].
  exists (named "alice" st_away), c, (named "bob" st_away), d, me, s'. split; [apply V_reach; exact st_away_reachable|]. split; [apply calm_ok; vm_compute; reflexivity|]. split; [exact C|]. split; [exact T|]. split; [intro I; destruct (not_In_b _ _ X I)|]. split; [vm_compute; reflexivity|]. split; [destruct M1; assumption|]. split; [apply not_In_b; exact M2|].
  split; [apply orders_b; vm_compute; reflexivity|]. split; [apply the_client_ok; [exact D1|vm_compute; reflexivity]|]. split; [rewrite D2; left; reflexivity|].
  split. { intros [Q _]. apply Bytes.memb_In in D3. destruct (Q D3) as [I|I]; [destruct (not_In_b _ _ T1 I)|destruct (not_In_b _ _ T2 I)]. }
  split; [rewrite H, R1; reflexivity|exact R2].
Qed.
(** A peer can introduce a user whose user name is the name of a channel; messages to the channel then go to this
    user instead: [only_channel] cannot be dropped. *)
Notation st_trap := (final conf0 [peer] (two_users ++ link ++ [E_Data 7 (lines [":hub.example.net NICK mallory 1 #test host.example.org 1 + :M"]%string); E_Time 2020 7])).
Lemma st_trap_reachable : reachable st_trap.
Proof. apply reach_final; [exact conf0_ok|vm_compute; reflexivity]. Qed.
Theorem C17_intercepted_refuted : exists h c ch k s', live st_trap /\ undisturbed st_trap /\ client_of st_trap 5 h c /\ cl_type c = T_USER /\ orders st_trap (B "PRIVMSG #test :secret") "PRIVMSG" [B "#test"; B "secret"] /\ the_channel st_trap (B "#test") ch k /\
  is_on st_trap h ch /\ is_on st_trap (named "bob" st_trap) ch /\ ~ is_on st_trap (named "mallory" st_trap) ch /\ Parse_Request 5 (B "PRIVMSG #test :secret") st_trap = Ok CONNECTED s' /\
  sends 7 ":alice PRIVMSG mallory :secret" s' = true /\ sends 6 ":alice!~alice@1.2.3.4 PRIVMSG #Test :secret" s' = false.
Proof.
  destruct (serves_ok st_trap 5 (named "alice" st_trap) (type_b T_USER)) as (c & C & T); [vm_compute; reflexivity|]. apply type_b_ok in T.
  destruct (chas_ok st_trap (cnamed "#Test" st_trap) (fun k => the_channel_b st_trap (B "#test") (cnamed "#Test" st_trap) k)) as (k & K & P); [vm_compute; reflexivity|].
  destruct (doing_ok _ (Parse_Request 5 (B "PRIVMSG #test :secret")) st_trap (fun b s => b && sends 7 ":alice PRIVMSG mallory :secret" s && negb (sends 6 ":alice!~alice@1.2.3.4 PRIVMSG #Test :secret" s))) as (b & s' & H & R); [vm_compute; reflexivity|]. rewrite !andb_true_iff, negb_true_iff in R. destruct R as [[R1 R2] R3].
  exists (named "alice" st_trap), c, (cnamed "#Test" st_trap), k, s'. split; [apply V_reach; exact st_trap_reachable|]. split; [apply calm_ok; vm_compute; reflexivity|]. split; [exact C|]. split; [exact T|]. split; [apply orders_b; vm_compute; reflexivity|]. split; [apply the_channel_ok; auto|].
  split; [apply on_b_ok; vm_compute; reflexivity|]. split; [apply on_b_ok; vm_compute; reflexivity|]. split; [intro I; apply on_b_ok in I; revert I; assert (Q : on_b (named "mallory" st_trap) (cnamed "#Test" st_trap) st_trap = false) by (vm_compute; reflexivity); rewrite Q; discriminate|]. split; [rewrite H, R1; reflexivity|]. split; [exact R2|exact R3].
Qed.
Print Assumptions C17_intercepted_refuted.
