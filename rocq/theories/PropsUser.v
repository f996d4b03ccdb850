(** Property theorems about what users can do to users and channels. *)
From Coq Require Import List Ascii String ZArith NArith Bool Lia Arith.
From Verif Require Import Bytes Lists ParseReq MatchSpec State Monad Core Write Info Chan Mode Msg Login Oper Server Dispatch Conn Live Spec Observ HandLine HandGain HandChan HandJoin HandKick HandMode Sessions.
Import ListNotations.

(** ** C20 *)
(** If a client becomes an IRC operator while the server handles an event, a line executed then is
    responsible: one of a linked server, or an OPER command of this client with the name and the
    password of a configured operator whose host mask matches.  [DefaultUserModes] may contain 'o': then
    every user becomes an operator (see below). *)
Theorem C20_operators_log_in : forall e s s' h, live s -> undisturbed s' -> ~ In "o"%char (cf_defusermodes (s_conf s)) -> (exists c, lookup h (s_heap s) = Some c) ->
  step e s = Ok tt s' -> ~ operator s h -> operator s' h ->
  exists i h' c text b s1 s2, live s1 /\ actions s s1 /\ client_of s1 i h' c /\ Parse_Request i text s1 = Ok b s2 /\ actions s2 s' /\ s_conf s1 = s_conf s /\
    (cl_type c = T_SERVER \/ (h' = h /\ oper_login s1 c text)).
Proof. exact event_gain. Qed.
Print Assumptions C20_operators_log_in.
(** one line *)
Theorem C20_line : forall s i h c text b s', live s -> undisturbed s -> client_of s i h c -> cl_type c <> T_SERVER ->
  ~ In "o"%char (cf_defusermodes (s_conf s)) -> Parse_Request i text s = Ok b s' ->
  forall j d d', lookup j (s_heap s) = Some d -> lookup j (s_heap s') = Some d' -> ~ In "o"%char (cl_modes d) -> In "o"%char (cl_modes d') ->
  j = h /\ cl_type c = T_USER /\ oper_login s c text.
Proof. exact only_oper_gains. Qed.
Print Assumptions C20_line.

Example C20_nonvacuous : exists s' h, live st_link /\ undisturbed s' /\ ~ In "o"%char (cf_defusermodes (s_conf st_link)) /\ (exists c, lookup h (s_heap st_link) = Some c) /\
  step (E_Data 5 (crlf "OPER root secret")) st_link = Ok tt s' /\ ~ operator st_link h /\ operator s' h.
Proof.
  destruct (doing_ok _ (step (E_Data 5 (crlf "OPER root secret"))) st_link (fun _ s => calm s && has s (named "alice" st_link) (fun c => memb "o" (cl_modes c)))) as ([] & s' & H & R); [vm_compute; reflexivity|].
  apply andb_true_iff in R. destruct R as [R1 R2]. destruct (has_ok _ _ _ R2) as (c' & K' & O').
  destruct (has_ok st_link (named "alice" st_link) (fun c => negb (memb "o" (cl_modes c)))) as (c & K & O); [vm_compute; reflexivity|]. apply negb_true_iff in O.
  destruct K as [K1 K2], K' as [K1' K2'].
  exists s', (named "alice" st_link). split; [apply V_reach; exact st_link_reachable|]. split; [apply calm_ok; exact R1|]. split; [apply not_In_b; vm_compute; reflexivity|].
  split; [exists c; exact K2|]. split; [exact H|]. split.
  - intros (x & E & I). rewrite K2 in E. injection E as <-. apply (not_In_b _ _ O). exact I.
  - exists c'. split; [exact K2'|]. unfold memb in O'. apply existsb_exists in O'. destruct O' as (x & I & E). apply Ascii.eqb_eq in E. subst x. exact I.
Qed.
(** a wrong password, and MODE +o: nothing *)
Example C20_refused : exists s' s'' , step (E_Data 5 (crlf "OPER root wrong")) st_link = Ok tt s' /\ has s' (named "alice" st_link) (fun c => memb "o" (cl_modes c)) = false /\
  step (E_Data 5 (crlf "MODE alice +o")) st_link = Ok tt s'' /\ has s'' (named "alice" st_link) (fun c => memb "o" (cl_modes c)) = false.
Proof.
  destruct (doing_ok _ (step (E_Data 5 (crlf "OPER root wrong"))) st_link (fun _ s => negb (has s (named "alice" st_link) (fun c => memb "o" (cl_modes c))))) as ([] & s' & H & R); [vm_compute; reflexivity|].
  destruct (doing_ok _ (step (E_Data 5 (crlf "MODE alice +o"))) st_link (fun _ s => negb (has s (named "alice" st_link) (fun c => memb "o" (cl_modes c))))) as ([] & s'' & H' & R'); [vm_compute; reflexivity|].
  apply negb_true_iff in R, R'. exists s', s''. auto.
Qed.
(** DefaultUserModes = o, which the configuration check accepts, makes an operator of everybody *)
Definition conf_dm : conf := set_cf_defusermodes (B "o") conf0.
Theorem C20_default_modes_refuted : exists s i h c, reachable s /\ conf_ok (s_conf s) /\ client_of s i h c /\ cl_type c = T_USER /\ In "o"%char (cl_modes c).
Proof.
  destruct (serves_ok (final conf_dm [] (login 5 "1.2.3.4" "alice")) 5 (named "alice" (final conf_dm [] (login 5 "1.2.3.4" "alice"))) (fun c => type_b T_USER c && memb "o" (cl_modes c))) as (c & K & U); [vm_compute; reflexivity|].
  apply andb_true_iff in U. destruct U as [U1 U2]. exists (final conf_dm [] (login 5 "1.2.3.4" "alice")), 5, (named "alice" (final conf_dm [] (login 5 "1.2.3.4" "alice"))), c.
  assert (KO : conf_ok conf_dm) by (repeat split; vm_compute; auto; try lia).
  split; [apply reach_final; [exact KO|vm_compute; reflexivity]|]. split; [apply Inv4.live_conf, V_reach, reach_final; [exact KO|vm_compute; reflexivity]|].
  split; [exact K|]. split; [apply type_b_ok; exact U1|]. unfold memb in U2. apply existsb_exists in U2. destruct U2 as (x & I & E). apply Ascii.eqb_eq in E. subst x. exact I.
Qed.
Print Assumptions C20_default_modes_refuted.

(** ** C33 *)
(** If the topic of a channel changes while the server handles an event, a line executed then is
    responsible: one of a linked server, or a TOPIC command of a client that may change it; the new
    topic is the one given. *)
Theorem C33_topic : forall e s s' ch k k', live s -> undisturbed s' -> step e s = Ok tt s' -> exists_chan s ch k -> exists_chan s' ch k' -> ch_topic k' <> ch_topic k ->
  exists i h c text b s1 s2 k1 k2, live s1 /\ actions s s1 /\ client_of s1 i h c /\ Parse_Request i text s1 = Ok b s2 /\ actions s2 s' /\
    exists_chan s1 ch k1 /\ exists_chan s2 ch k2 /\ ch_topic k1 = ch_topic k /\ ch_topic k2 <> ch_topic k /\
    (cl_type c = T_SERVER \/ exists name t, says text "TOPIC" [name; t] /\ same_name name (ch_name k1) /\ may_set_topic s1 h c ch k1 /\ (List.length t <= 512 -> ch_topic k2 = t)).
Proof. exact topic_event. Qed.
Print Assumptions C33_topic.
(** one line *)
Theorem C33_line : forall s i h c text b s', live s -> client_of s i h c -> cl_type c <> T_SERVER -> Parse_Request i text s = Ok b s' ->
  forall ch k k', exists_chan s ch k -> exists_chan s' ch k' -> ch_topic k' <> ch_topic k ->
  exists name t, says text "TOPIC" [name; t] /\ same_name name (ch_name k) /\ may_set_topic s h c ch k /\ (List.length t <= 512 -> ch_topic k' = t).
Proof. exact topic_line. Qed.
Print Assumptions C33_line.
Example C33_nonvacuous : exists s' ch k k', live st_link /\ undisturbed s' /\ step (E_Data 6 (crlf "TOPIC #test :Hello")) st_link = Ok tt s' /\
  exists_chan st_link ch k /\ exists_chan s' ch k' /\ ch_topic k' <> ch_topic k.
Proof.
  destruct (doing_ok _ (step (E_Data 6 (crlf "TOPIC #test :Hello"))) st_link (fun _ s => calm s && chas s (cnamed "#Test" st_link) (fun k => beq (ch_topic k) (B "Hello")))) as ([] & s' & H & R); [vm_compute; reflexivity|].
  apply andb_true_iff in R. destruct R as [R1 R2]. destruct (chas_ok _ _ _ R2) as (k' & K' & O'). apply beq_eq in O'.
  destruct (chas_ok st_link (cnamed "#Test" st_link) (fun k => beq (ch_topic k) [])) as (k & K & O); [vm_compute; reflexivity|]. apply beq_eq in O.
  exists s', (cnamed "#Test" st_link), k, k'. split; [apply V_reach; exact st_link_reachable|]. split; [apply calm_ok; exact R1|]. split; [exact H|]. split; [exact K|]. split; [exact K'|].
  rewrite O, O'. discriminate.
Qed.
(** with +t, bob, who has no privileges, is refused; alice, the channel's operator, is not *)
Example C33_refused : forall s1 s2, step (E_Data 5 (crlf "MODE #test +t")) st_link = Ok tt s1 -> step (E_Data 6 (crlf "TOPIC #test :Hello")) s1 = Ok tt s2 ->
  chas s2 (cnamed "#Test" st_link) (fun k => beq (ch_topic k) []) = true.
Proof.
  assert (doing (bind (step (E_Data 5 (crlf "MODE #test +t"))) (fun _ => step (E_Data 6 (crlf "TOPIC #test :Hello")))) st_link (fun _ s => chas s (cnamed "#Test" st_link) (fun k => beq (ch_topic k) [])) = true) as K by (vm_compute; reflexivity).
  intros s1 s2 E1 E2. unfold doing, bind in K. rewrite E1, E2 in K. exact K.
Qed.

(** ** C15 *)
(** One line of a registered user: only he himself can get on a channel by it, the line is a JOIN
    command that names the channel, and if the channel existed before, the rules for its modes and
    lists let him in: see [admitted].  The keys are those at the same positions of the second argument. *)
Theorem C15_line : forall s i h c text b s', live s -> undisturbed s -> client_of s i h c -> cl_type c = T_USER -> Parse_Request i text s = Ok b s' ->
  forall j ch, ~ is_on s j ch -> is_on s' j ch -> j = h /\
  exists args n name k', says text "JOIN" args /\ nth_error (strtok "," (nth 0 args [])) n = Some name /\ exists_chan s' ch k' /\ same_name name (ch_name k') /\
  (forall k, exists_chan s ch k -> admitted s c ch k (nth_error (strtok "," (nth 1 args [])) n)).
Proof. exact C15_line_aux. Qed.
Print Assumptions C15_line.
(** Any event: if somebody gets on a channel, a line executed then is responsible.  It comes from a
    linked server, or from a client that is not (yet) a registered user (it completes its login and the
    server joins it to the configured channels), or it is a JOIN command as above. *)
Theorem C15_event : forall e s s' j ch, live s -> undisturbed s' -> step e s = Ok tt s' -> ~ is_on s j ch -> is_on s' j ch ->
  exists i h c text b s1 s2, live s1 /\ undisturbed s1 /\ actions s s1 /\ client_of s1 i h c /\ Parse_Request i text s1 = Ok b s2 /\ actions s2 s' /\ ~ is_on s1 j ch /\ is_on s2 j ch /\
    (cl_type c = T_USER -> j = h /\
      exists args n name k', says text "JOIN" args /\ nth_error (strtok "," (nth 0 args [])) n = Some name /\ exists_chan s2 ch k' /\ same_name name (ch_name k') /\
      (forall k, exists_chan s1 ch k -> admitted s1 c ch k (nth_error (strtok "," (nth 1 args [])) n))).
Proof.
  intros e s s' j ch L U H N Y. destruct (join_event _ _ _ _ _ L U H N Y) as (i & h & c & text & b & s1 & s2 & L1 & U1 & A1 & C & P & A2 & N1 & Y1 & _).
  exists i, h, c, text, b, s1, s2. repeat (split; [assumption|]). intro T. exact (C15_line _ _ _ _ _ _ _ L1 U1 C T P j ch N1 Y1).
Qed.
Print Assumptions C15_event.
Definition on_b (j : handle) (ch : chandle) (s : state) : bool := existsb (fun m => Nat.eqb (mb_client m) j && Nat.eqb (mb_chan m) ch) (s_members s).
Lemma on_b_ok : forall j ch s, on_b j ch s = true <-> is_on s j ch.
Proof.
  intros j ch s. unfold on_b. rewrite existsb_exists. split.
  - intros (m & I & E). apply andb_true_iff in E. destruct E as [E1 E2]. apply Nat.eqb_eq in E1, E2. exists m. auto.
  - intros (m & I & E1 & E2). exists m. split; auto. rewrite E1, E2, !Nat.eqb_refl. reflexivity.
Qed.
(** alice locks her new channel with a key; bob gets in with the key only *)
Notation st_key := (final conf0 [peer] (two_users ++ link ++ [E_Data 5 (crlf "JOIN #locked"); E_Time 2020 7; E_Data 5 (crlf "MODE #locked +k sesame"); E_Time 2030 7])).
Lemma st_key_reachable : reachable st_key.
Proof. apply reach_final; [exact conf0_ok|vm_compute; reflexivity]. Qed.
Example C15_nonvacuous : exists s' h ch, live st_key /\ undisturbed s' /\ step (E_Data 6 (crlf "JOIN #LOCKED sesame")) st_key = Ok tt s' /\ ~ is_on st_key h ch /\ is_on s' h ch /\
  exists k, exists_chan st_key ch k /\ In "k"%char (ch_modes k).
Proof.
  destruct (doing_ok _ (step (E_Data 6 (crlf "JOIN #LOCKED sesame"))) st_key (fun _ s => calm s && on_b (named "bob" st_key) (cnamed "#locked" st_key) s)) as ([] & s' & H & R); [vm_compute; reflexivity|].
  apply andb_true_iff in R. destruct R as [R1 R2].
  destruct (chas_ok st_key (cnamed "#locked" st_key) (fun k => existsb (Ascii.eqb "k") (ch_modes k))) as (k & K & O); [vm_compute; reflexivity|].
  exists s', (named "bob" st_key), (cnamed "#locked" st_key). split; [apply V_reach; exact st_key_reachable|]. split; [apply calm_ok; exact R1|]. split; [exact H|]. split; [|split; [apply on_b_ok; exact R2|]].
  - intro Z. apply on_b_ok in Z. assert (X : on_b (named "bob" st_key) (cnamed "#locked" st_key) st_key = false) by (vm_compute; reflexivity). congruence.
  - exists k. split; auto. apply existsb_exists in O. destruct O as (x & Ix & E). apply Ascii.eqb_eq in E. subst x. exact Ix.
Qed.
(** a wrong key, no key, or the right key at the wrong position *)
Example C15_refused : forall t s', In t ["JOIN #LOCKED open"; "JOIN #LOCKED"; "JOIN #locked,#other open,sesame"]%string -> step (E_Data 6 (crlf t)) st_key = Ok tt s' ->
  on_b (named "bob" st_key) (cnamed "#locked" st_key) s' = false.
Proof.
  intros t s' I H. apply negb_true_iff. revert t s' I H. apply (doing_all 6 st_key (fun s => negb (on_b (named "bob" st_key) (cnamed "#locked" st_key) s))). vm_compute. reflexivity.
Qed.

(** ** C44 *)
(** What a user gets with a new membership: on a channel that he creates he is channel operator (with
    no other privilege), unless its name starts with '+', where he has no privilege; on a channel that
    existed he gets no privilege, except that an IRC operator becomes channel operator of a persistent
    channel if the option OperChanPAutoOp is set. *)
Theorem C44_line : forall s i h c text b s', live s -> undisturbed s -> client_of s i h c -> cl_type c = T_USER -> Parse_Request i text s = Ok b s' ->
  forall m, In m (s_members s') -> ~ is_on s (mb_client m) (mb_chan m) -> mb_client m = h /\ exists k', exists_chan s' (mb_chan m) k' /\
  match lookup (mb_chan m) (s_chans s) with
  | None => if Ascii.eqb (hd0 (ch_name k')) "+"%char then mb_modes m = [] else In "o"%char (mb_modes m) /\ forall x, In x (mb_modes m) -> x = "o"%char
  | Some k => forall x, In x (mb_modes m) -> x = "o"%char /\ In "P"%char (ch_modes k) /\ In "o"%char (cl_modes c) /\ cf_operchanpautoop (s_conf s) = true
  end.
Proof. exact C44_line_aux. Qed.
Print Assumptions C44_line.
Example C44_nonvacuous : exists h c s', live st_link /\ undisturbed st_link /\ client_of st_link 6 h c /\ cl_type c = T_USER /\ Parse_Request 6 (B "JOIN #new,+new") st_link = Ok CONNECTED s' /\
  List.length (filter (fun m => Nat.eqb (mb_client m) h && beq (mb_modes m) (B "o")) (s_members s')) = 1 /\ List.length (filter (fun m => Nat.eqb (mb_client m) h && beq (mb_modes m) []) (s_members s')) = 2.
Proof.
  destruct (serves_ok st_link 6 (named "bob" st_link) (type_b T_USER)) as (c & C & T); [vm_compute; reflexivity|]. apply type_b_ok in T.
  destruct (doing_ok _ (Parse_Request 6 (B "JOIN #new,+new")) st_link (fun b s => b && Nat.eqb (List.length (filter (fun m => Nat.eqb (mb_client m) (named "bob" st_link) && beq (mb_modes m) (B "o")) (s_members s))) 1 && Nat.eqb (List.length (filter (fun m => Nat.eqb (mb_client m) (named "bob" st_link) && beq (mb_modes m) []) (s_members s))) 2)) as (b & s' & H & R); [vm_compute; reflexivity|].
  rewrite !andb_true_iff in R. destruct R as [[R1 R2] R3]. apply Nat.eqb_eq in R2, R3.
  exists (named "bob" st_link), c, s'. split; [apply V_reach; exact st_link_reachable|]. split; [apply calm_ok; vm_compute; reflexivity|]. split; [exact C|]. split; [exact T|]. split; [rewrite H, R1; reflexivity|]. split; [exact R2|exact R3].
Qed.

(** ** C19 *)
(** One line of a registered user: if another client leaves a channel and still exists afterwards, the
    line is a KICK command that names this channel and this client, and the rules allow the kick. *)
Theorem C19_line : forall s i h c text b s', live s -> undisturbed s -> client_of s i h c -> cl_type c = T_USER -> Parse_Request i text s = Ok b s' ->
  forall j ch, is_on s j ch -> ~ is_on s' j ch -> j <> h -> lookup j (s_heap s') <> None ->
  exists args nick name k d, says text "KICK" args /\ In name (split_on "," (nth 0 args [])) /\ In nick (split_on "," (nth 1 args [])) /\
    exists_chan s ch k /\ same_name name (ch_name k) /\ called s nick j /\ known s j d /\ may_kick s h c ch k j d.
Proof. intros s i h c text b s' L U C T H j ch O N NE K. rewrite lookup_assoc in K. eapply kick_line; eauto. Qed.
Print Assumptions C19_line.
(** Any event: if a client leaves a channel and still exists afterwards, a line executed then is
    responsible: its own, one of a linked server (or of a client that is not a registered user yet), or a
    KICK command as above. *)
Theorem C19_event : forall e s s' j ch, live s -> undisturbed s' -> step e s = Ok tt s' -> is_on s j ch -> ~ is_on s' j ch -> (exists d, lookup j (s_heap s') = Some d) ->
  exists i h c text b s1 s2, live s1 /\ undisturbed s1 /\ actions s s1 /\ client_of s1 i h c /\ Parse_Request i text s1 = Ok b s2 /\ actions s2 s' /\ is_on s1 j ch /\ ~ is_on s2 j ch /\
    (h = j \/ cl_type c <> T_USER \/
     exists args nick name k d, says text "KICK" args /\ In name (split_on "," (nth 0 args [])) /\ In nick (split_on "," (nth 1 args [])) /\
       exists_chan s1 ch k /\ same_name name (ch_name k) /\ called s1 nick j /\ known s1 j d /\ may_kick s1 h c ch k j d).
Proof. exact kick_event. Qed.
Print Assumptions C19_event.
(** alice, the operator of the channel, kicks bob *)
Example C19_nonvacuous : exists s' j ch, live st_link /\ undisturbed s' /\ step (E_Data 5 (crlf "KICK #test bob :bye")) st_link = Ok tt s' /\
  is_on st_link j ch /\ ~ is_on s' j ch /\ (exists d, lookup j (s_heap s') = Some d).
Proof.
  destruct (doing_ok _ (step (E_Data 5 (crlf "KICK #test bob :bye"))) st_link (fun _ s => calm s && negb (on_b (named "bob" st_link) (cnamed "#Test" st_link) s) && has s (named "bob" st_link) (fun _ => true))) as ([] & s' & H & R); [vm_compute; reflexivity|].
  rewrite !andb_true_iff in R. destruct R as [[R1 R2] R3]. exists s', (named "bob" st_link), (cnamed "#Test" st_link). split; [apply V_reach; exact st_link_reachable|]. split; [apply calm_ok; exact R1|]. split; [exact H|].
  split; [apply on_b_ok; vm_compute; reflexivity|]. split; [intro Z; apply on_b_ok in Z; rewrite Z in R2; discriminate R2|]. destruct (has_ok _ _ _ R3) as (d & [_ K] & _). exists d. exact K.
Qed.
(** bob, who has no privilege, cannot kick alice; neither can half an order of commands *)
Example C19_refused : forall t s', In t ["KICK #test alice"; "KICK #test bob,alice"; "KICK #test,#test alice,alice"]%string -> step (E_Data 6 (crlf t)) st_link = Ok tt s' ->
  on_b (named "alice" st_link) (cnamed "#Test" st_link) s' = true.
Proof. apply (doing_all 6 st_link (fun s => on_b (named "alice" st_link) (cnamed "#Test" st_link) s)). vm_compute. reflexivity. Qed.

(** ** C18 *)
(** A line of a registered user leaves the modes, the key, the user limit, the ban list and the exception
    list of every channel alone, unless it is a MODE command for this channel and the user is entitled
    to every one of the changes it makes: [may_change] (Spec.v).  In particular each mode that was set or
    removed is one this user may set or remove ([may_set_mode], evaluated in the state before the
    command) and occurs in the arguments; a new key is one of the arguments. *)
Theorem C18_line : forall s i h c text b s', live s -> undisturbed s -> client_of s i h c -> cl_type c = T_USER -> Parse_Request i text s = Ok b s' ->
  forall ch k k', exists_chan s ch k -> exists_chan s' ch k' ->
  (ch_modes k' = ch_modes k /\ ch_key k' = ch_key k /\ ch_maxusers k' = ch_maxusers k /\ ch_bans k' = ch_bans k /\ ch_excepts k' = ch_excepts k) \/
  exists name args, says text "MODE" (name :: args) /\ same_name name (ch_name k) /\ may_change s h c ch args k k'.
Proof. exact mode_line. Qed.
Print Assumptions C18_line.
(** A line of a registered user gives a privilege on a channel to one of its members, or takes it, only
    if it is a MODE command for this channel that names the member and the letter, and the user is
    entitled to that ([may_set_priv], evaluated in the state before the command: nobody can raise himself
    with the first letters of a command to use it for the next). *)
Theorem C18_privileges_line : forall s i h c text b s', live s -> undisturbed s -> client_of s i h c -> cl_type c = T_USER -> Parse_Request i text s = Ok b s' ->
  forall j ch x, is_on s j ch -> is_on s' j ch -> ~ (has_priv s j ch x <-> has_priv s' j ch x) ->
  exists k name args nick, says text "MODE" (name :: args) /\ exists_chan s ch k /\ same_name name (ch_name k) /\ In nick args /\ called s nick j /\ asked args x /\ may_set_priv s h c ch x.
Proof. exact priv_line. Qed.
Print Assumptions C18_privileges_line.
(** Any event: if one of these settings of a channel changes, a line executed then is responsible: one
    of a client that is not a registered user (a linked server or a service), or such a MODE command. *)
Theorem C18_event : forall e s s' ch k k', live s -> undisturbed s' -> step e s = Ok tt s' -> exists_chan s ch k -> exists_chan s' ch k' ->
  (ch_modes k', ch_key k', ch_maxusers k', ch_bans k', ch_excepts k') <> (ch_modes k, ch_key k, ch_maxusers k, ch_bans k, ch_excepts k) ->
  exists i h c text b s1 s2 k1 k2, live s1 /\ undisturbed s1 /\ actions s s1 /\ client_of s1 i h c /\ Parse_Request i text s1 = Ok b s2 /\ actions s2 s' /\
    exists_chan s1 ch k1 /\ exists_chan s2 ch k2 /\
    (ch_modes k1, ch_key k1, ch_maxusers k1, ch_bans k1, ch_excepts k1) = (ch_modes k, ch_key k, ch_maxusers k, ch_bans k, ch_excepts k) /\
    (ch_modes k2, ch_key k2, ch_maxusers k2, ch_bans k2, ch_excepts k2) <> (ch_modes k, ch_key k, ch_maxusers k, ch_bans k, ch_excepts k) /\
    (cl_type c = T_USER -> exists name args, says text "MODE" (name :: args) /\ same_name name (ch_name k1) /\ may_change s1 h c ch args k1 k2).
Proof. exact mode_event. Qed.
Print Assumptions C18_event.
(** Any event: if a client gains a privilege on a channel, a line executed then is responsible: one of a
    client that is not a registered user, the JOIN of this client, or such a MODE command. *)
Theorem C18_privileges_event : forall e s s' j ch x, live s -> undisturbed s' -> step e s = Ok tt s' -> ~ has_priv s j ch x -> has_priv s' j ch x ->
  exists i h c text b s1 s2, live s1 /\ undisturbed s1 /\ actions s s1 /\ client_of s1 i h c /\ Parse_Request i text s1 = Ok b s2 /\ actions s2 s' /\ ~ has_priv s1 j ch x /\ has_priv s2 j ch x /\
    (cl_type c = T_USER -> ~ is_on s1 j ch \/ exists k name args nick, says text "MODE" (name :: args) /\ exists_chan s1 ch k /\ same_name name (ch_name k) /\ In nick args /\ called s1 nick j /\ asked args x /\ may_set_priv s1 h c ch x).
Proof. exact priv_event. Qed.
Print Assumptions C18_privileges_event.
Definition priv_b (j : handle) (ch : chandle) (x : ascii) (s : state) : bool := existsb (fun m => Nat.eqb (mb_client m) j && Nat.eqb (mb_chan m) ch && memb x (mb_modes m)) (s_members s).
Lemma priv_b_ok : forall j ch x s, priv_b j ch x s = true <-> has_priv s j ch x.
Proof.
  intros j ch x s. unfold priv_b. rewrite existsb_exists. split.
  - intros (m & I & E). rewrite !andb_true_iff in E. destruct E as [[E1 E2] E3]. apply Nat.eqb_eq in E1, E2. apply memb_In in E3. exists m. auto.
  - intros (m & I & E1 & E2 & E3). apply memb_In in E3. exists m. split; auto. rewrite E1, E2, E3, !Nat.eqb_refl. reflexivity.
Qed.
(** alice, the operator of the channel, sets a key, a limit and a ban, and makes bob an operator *)
Example C18_nonvacuous : exists s' ch k k', live st_link /\ undisturbed s' /\ step (E_Data 5 (crlf "MODE #test +klbo sesame 9 bad!*@* bob")) st_link = Ok tt s' /\
  exists_chan st_link ch k /\ exists_chan s' ch k' /\
  (ch_modes k', ch_key k', ch_maxusers k', ch_bans k', ch_excepts k') <> (ch_modes k, ch_key k, ch_maxusers k, ch_bans k, ch_excepts k) /\
  ~ has_priv st_link (named "bob" st_link) ch "o" /\ has_priv s' (named "bob" st_link) ch "o".
Proof.
  destruct (doing_ok _ (step (E_Data 5 (crlf "MODE #test +klbo sesame 9 bad!*@* bob"))) st_link (fun _ s => calm s && priv_b (named "bob" st_link) (cnamed "#Test" st_link) "o" s &&
    chas s (cnamed "#Test" st_link) (fun k => memb "k" (ch_modes k) && beq (ch_key k) (B "sesame") && (ch_maxusers k =? 9)%Z && (List.length (ch_bans k) =? 1)%nat))) as ([] & s' & H & R); [vm_compute; reflexivity|].
  rewrite !andb_true_iff in R. destruct R as [[R1 R2] R3]. destruct (chas_ok _ _ _ R3) as (k' & K' & F). rewrite !andb_true_iff in F. destruct F as [[[F1 F2] F3] F4].
  assert (K : chas st_link (cnamed "#Test" st_link) (fun k => negb (memb "k" (ch_modes k))) = true) by (vm_compute; reflexivity). destruct (chas_ok _ _ _ K) as (k & K0 & G).
  exists s', (cnamed "#Test" st_link), k, k'. split; [apply V_reach; exact st_link_reachable|]. split; [apply calm_ok; exact R1|]. split; [exact H|]. split; [exact K0|]. split; [exact K'|].
  split; [intro E; injection E as E _ _ _ _; rewrite E in F1; rewrite F1 in G; discriminate G|]. split; [|apply priv_b_ok; exact R2].
  intro Z. apply priv_b_ok in Z. revert Z. assert (Z' : priv_b (named "bob" st_link) (cnamed "#Test" st_link) "o" st_link = false) by (vm_compute; reflexivity). intro Z. rewrite Z in Z'. discriminate Z'.
Qed.
(** bob, who has no privilege, changes nothing *)
Example C18_refused : forall t s', In t ["MODE #test +k x"; "MODE #test +o bob"; "MODE #test -o alice"; "MODE #test +b alice!*@*"; "MODE #test +v bob"; "MODE #test -nt"; "MODE #test +P"; "MODE #test +l 1"]%string -> step (E_Data 6 (crlf t)) st_link = Ok tt s' ->
  chas s' (cnamed "#Test" st_link) (fun k => beq (ch_modes k) (match assoc (cnamed "#Test" st_link) (s_chans st_link) with Some k0 => ch_modes k0 | None => B "?" end) && beq (ch_key k) [] && (List.length (ch_bans k) =? 0)%nat) &&
  negb (priv_b (named "bob" st_link) (cnamed "#Test" st_link) "o" s') && negb (priv_b (named "bob" st_link) (cnamed "#Test" st_link) "v" s') && priv_b (named "alice" st_link) (cnamed "#Test" st_link) "o" s' = true.
Proof. apply (doing_all 6 st_link (fun s' => chas s' (cnamed "#Test" st_link) (fun k => beq (ch_modes k) (match assoc (cnamed "#Test" st_link) (s_chans st_link) with Some k0 => ch_modes k0 | None => B "?" end) && beq (ch_key k) [] && (List.length (ch_bans k) =? 0)%nat) &&
  negb (priv_b (named "bob" st_link) (cnamed "#Test" st_link) "o" s') && negb (priv_b (named "bob" st_link) (cnamed "#Test" st_link) "v" s') && priv_b (named "alice" st_link) (cnamed "#Test" st_link) "o" s')). vm_compute. reflexivity. Qed.
