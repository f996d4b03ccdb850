(** C45: when the login of another server is completed, it is told everything about the network, in an order it can use. *)
From Coq Require Import List Ascii String ZArith NArith Bool Lia Arith.
From Verif Require Import Bytes Match Lists ParseReq State Monad Core Server Dispatch Conn Rel Inv1 Live Spec SpecLink SpecSync HandSync Sessions PropsUser PropsLink.
Import ListNotations.

(** The connection stays open, and the peer is now a server *)
Theorem C45_registered : forall s i h c cn s', link_done s i h c cn s' -> exists p, lookup h (s_heap s') = Some p /\ cl_type p = T_SERVER /\ cl_conn p = Some i /\ is_open s' i = true.
Proof. intros s i h c cn s' H. exact (sync_peer _ _ _ _ _ _ (done_synced _ _ _ _ _ _ H)). Qed.
Print Assumptions C45_registered.
(** Every other server is announced to it; those nearer to this server before those further away *)
Theorem C45_servers : forall s i h c cn s' me g d, link_done s i h c cn s' -> lookup This_Server (s_heap s') = Some me -> other_server s' h g d ->
  exists src, server_via s' me d src /\ sent s s' i (prefixed src (server_text d)).
Proof. intros s i h c cn s' me g d H M. exact (sync_server _ _ _ _ _ _ _ (done_synced _ _ _ _ _ _ H) M g d). Qed.
Print Assumptions C45_servers.
Theorem C45_server_order : forall s i h c cn s' me g d g2 d2, link_done s i h c cn s' -> lookup This_Server (s_heap s') = Some me -> other_server s' h g d -> other_server s' h g2 d2 -> (cl_hops d < cl_hops d2)%Z ->
  exists src src2, server_via s' me d src /\ server_via s' me d2 src2 /\ sent_before s s' i (prefixed src (server_text d)) (prefixed src2 (server_text d2)).
Proof. intros s i h c cn s' me g d g2 d2 H M. exact (sync_servers _ _ _ _ _ _ _ (done_synced _ _ _ _ _ _ H) M g d g2 d2). Qed.
Print Assumptions C45_server_order.
(** It is announced to every other link *)
Theorem C45_other_links : forall s i h c cn s' me g d j p, link_done s i h c cn s' -> lookup This_Server (s_heap s') = Some me -> other_server s' h g d -> cl_conn d = Some j -> lookup h (s_heap s') = Some p ->
  sent s s' j (prefixed (id_of me) (server_text p)).
Proof. intros s i h c cn s' me g d j p H M. exact (sync_others _ _ _ _ _ _ _ (done_synced _ _ _ _ _ _ H) M g d j p). Qed.
Print Assumptions C45_other_links.
(** Every user and service is announced to it, after all the servers *)
Theorem C45_users : forall s i h c cn s' me p g d, link_done s i h c cn s' -> lookup This_Server (s_heap s') = Some me -> lookup h (s_heap s') = Some p -> a_person s' g d ->
  exists line, user_line s' p d (co_rfc1459 cn) me line /\ sent s s' i line /\
  forall g2 d2, other_server s' h g2 d2 -> exists src, server_via s' me d2 src /\ sent_before s s' i (prefixed src (server_text d2)) line.
Proof. intros s i h c cn s' me p g d H M P A. exact (sync_user _ _ _ _ _ _ _ (done_synced _ _ _ _ _ _ H) M g d p A P). Qed.
Print Assumptions C45_users.
(** Every member of every channel that is not local, with its modes; after the settings of the channel (for peers with the flag C), and after the member has been announced itself *)
Theorem C45_members : forall s i h c cn s' me p ch k n m d, link_done s i h c cn s' -> lookup This_Server (s_heap s') = Some me -> lookup h (s_heap s') = Some p ->
  exists_chan s' ch k -> ~ local_name (ch_name k) -> n < 32 -> plain_members s' ch n -> In m (s_members s') -> mb_chan m = ch -> lookup (mb_client m) (s_heap s') = Some d ->
  exists line, member_line (co_rfc1459 cn) (memb "X" (cl_flags c)) me d k (mb_modes m) n line /\ sent s s' i line /\
    (memb "C" (cl_flags c) = true -> has_settings k -> sent_before s s' i (prefixed (id_of me) (chaninfo_text k)) line) /\
    (a_person s' (mb_client m) d -> exists intro, user_line s' p d (co_rfc1459 cn) me intro /\ sent_before s s' i intro line).
Proof.
  intros s i h c cn s' me p ch k n m d H M P CK NL N PM I E D. destruct (proj2 (sync_chan _ _ _ _ _ _ _ (done_synced _ _ _ _ _ _ H) M ch k CK NL) n N PM m d I E D) as (line & Q1 & Q2 & Q3 & Q4).
  exists line. exact (conj Q1 (conj Q2 (conj Q3 (Q4 p P)))).
Qed.
Print Assumptions C45_members.
(** The settings of every channel that is not local *)
Theorem C45_settings : forall s i h c cn s' me ch k, link_done s i h c cn s' -> lookup This_Server (s_heap s') = Some me -> exists_chan s' ch k -> ~ local_name (ch_name k) ->
  memb "C" (cl_flags c) = true -> has_settings k -> sent s s' i (prefixed (id_of me) (chaninfo_text k)).
Proof. intros s i h c cn s' me ch k H M CK NL. exact (proj1 (sync_chan _ _ _ _ _ _ _ (done_synced _ _ _ _ _ _ H) M ch k CK NL)). Qed.
Print Assumptions C45_settings.
(** For peers with the flag L: the G-lines, and the lists of every channel *)
Theorem C45_lists : forall s i h c cn s' me, link_done s i h c cn s' -> lookup This_Server (s_heap s') = Some me -> memb "L" (cl_flags c) = true ->
  (forall e, In e (s_glines s') -> sent s s' i (prefixed (id_of me) (gline_text (s_now s') e))) /\
  (forall ch k ty e, exists_chan s' ch k -> on_list k ty e -> sent s s' i (prefixed (id_of me) (mode_text k ty e))).
Proof. intros s i h c cn s' me H M. exact (sync_lists _ _ _ _ _ _ _ (done_synced _ _ _ _ _ _ H) M). Qed.
Print Assumptions C45_lists.
(** Lines of up to 510 bytes go out as they are; so do those with the members, if the name of this server and the nicknames are not too long together *)
Theorem C45_not_cut : forall me d k xop modes n line, member_line false xop me d k modes n line -> List.length (id_of me) + n <= 29 -> ~ In "000"%char line -> on_wire line = line ++ [CR; LF].
Proof. intros me d k xop modes n line (l & _ & _ & L) F. apply wire_short. lia. Qed.
Print Assumptions C45_not_cut.

(** ** A session *)
Definition login2 : list event := [E_Accept 8 (B "1.2.3.8") false; E_Resolved 8 []; E_Data 8 (lines ["PASS in2 0210-IRC+ ngIRCd|26:CHLMSX"; "SERVER other.example.net 1 :Other"]%string); E_Time 2020 7].
Notation st_new := (final conf0 [peer; peer2] (two_users ++ Sessions.link ++ [E_Data 5 (crlf "TOPIC #test :Welcome"); E_Time 2015 7; E_Data 5 (crlf "MODE #test +b x!*@*"); E_Time 2018 7] ++ login2)).
Definition end_motd : bytes := B ":other.example.net 376 * :End".
(** the state after the line *)
Definition after (i : connid) (t : bytes) (s : state) : state := match Parse_Request i t s with Ok _ s' => s' | Bad _ => s end.
Lemma after_ok : forall i t s, match Parse_Request i t s with Ok _ _ => true | Bad _ => false end = true -> exists b, Parse_Request i t s = Ok b (after i t s).
Proof. intros i t s. unfold after. destruct (Parse_Request i t s) as [b s'|w]; [exists b; reflexivity|discriminate]. Qed.
Definition ready_b (s : state) (i : connid) (t : bytes) : bool :=
  Spec.is_open s i && negb (cf_scrubctcp (s_conf s)) && match parse_line (trim t) with Some (mkReq _ c (a :: _)) => beq c (B "376") && beq a (B "*") | _ => false end.
Lemma done_ok : forall s i h t f, live s -> calm s = true -> serves s i h (fun c => type_b T_UNKNOWNSERVER c && f c) = true -> ready_b s i t = true -> match Parse_Request i t s with Ok _ _ => true | Bad _ => false end = true ->
  exists c cn, f c = true /\ link_done s i h c cn (after i t s).
Proof.
  intros s i h t f Lv Cm Sv R P. apply serves_ok in Sv. destruct Sv as (c & C & Q). apply andb_true_iff in Q. destruct Q as [T F]. apply type_b_ok in T. unfold ready_b in R. apply andb_true_iff in R. destruct R as [R R3]. apply andb_true_iff in R. destruct R as [R1 R2].
  destruct (after_ok _ _ _ P) as (b & Pb). destruct (proj1 C) as (cn & Cn & _). exists c, cn. split; auto. split; auto. split; [apply calm_ok; exact Cm|]. split; auto. exists t, b. split; auto. split; auto. split; auto. split; auto. split.
  - destruct (parse_line (trim t)) as [[p cm [|a l]]|]; try discriminate R3. apply andb_true_iff in R3. destruct R3 as [B1 B2]. apply beq_eq in B1. apply beq_eq in B2. subst. exists p, (B "*"), l. auto.
  - intro E. rewrite E in R2. discriminate R2.
Qed.
Lemma st_new_reachable : reachable st_new. Proof. apply reach_final; [exact conf0_ok|vm_compute; reflexivity]. Qed.
Notation st_end := (after 8 end_motd st_new).
Notation h_other := (named "other.example.net" st_new).
Definition known_b (s : state) (h : handle) (f : client -> bool) : bool := has s h f.
Definition other_b (s : state) (h g : handle) : bool := has s g (fun d => type_b T_SERVER d && negb (Nat.eqb g h) && negb (Nat.eqb g This_Server) && (0 <=? cl_hops d)%Z).
Lemma other_ok : forall s h g, other_b s h g = true -> exists d, other_server s h g d.
Proof.
  intros s h g H. apply has_ok in H. destruct H as (d & K & H). exists d. apply andb_true_iff in H. destruct H as [H H4]. apply andb_true_iff in H. destruct H as [H H3]. apply andb_true_iff in H. destruct H as [H1 H2].
  apply type_b_ok in H1. split; auto. split; auto. split; [intros ->; rewrite Nat.eqb_refl in H2; discriminate|]. split; [intros ->; rewrite Nat.eqb_refl in H3; discriminate|]. apply Z.leb_le. exact H4.
Qed.
Definition person_b (s : state) (g : handle) : bool := has s g (type_b T_USER).
Lemma person_ok : forall s g, person_b s g = true -> exists d, a_person s g d.
Proof. intros s g H. apply has_ok in H. destruct H as (d & K & H). apply type_b_ok in H. exists d. split; auto. Qed.
Definition plain_b (s : state) (ch : chandle) (n : nat) : bool :=
  forallb (fun m => negb (Nat.eqb (mb_chan m) ch) || match lookup (mb_client m) (s_heap s) with Some d => negb (beq (cl_id d) []) && negb (Ascii.eqb (List.last (cl_id d) " "%char) ":") && Nat.leb (List.length (cl_id d)) n | None => false end) (s_members s).
Lemma plain_ok : forall s ch n, plain_b s ch n = true -> plain_members s ch n.
Proof.
  intros s ch n H g (m & I & E1 & E2). unfold plain_b in H. rewrite forallb_forall in H. specialize (H _ I). rewrite E2, Nat.eqb_refl, E1 in H. cbn [negb orb] in H. destruct (lookup g (s_heap s)) as [d|]; [|discriminate H]. apply andb_true_iff in H. destruct H as [H H3]. apply andb_true_iff in H. destruct H as [H1 H2].
  exists d. destruct (exists_last (l := cl_id d)) as (r & x & E). { intro E. rewrite E in H1. discriminate H1. } exists r, x. split; auto. split; auto. rewrite E, last_last in H2. apply Nat.leb_le in H3. rewrite E, app_length in H3. cbn [List.length] in H3. split; [|lia]. intros ->. discriminate H2.
Qed.
(** The peer gets, in this order: the two servers, the users, the channel; the other link is told about the peer *)
Example C45_nonvacuous : exists c cn hub leaf alice k, link_done st_new 8 h_other c cn st_end /\ memb "C" (cl_flags c) = true /\ memb "L" (cl_flags c) = true /\ memb "X" (cl_flags c) = true /\
  other_server st_end h_other (named "hub.example.net" st_end) hub /\ other_server st_end h_other (named "leaf.example.net" st_end) leaf /\ (cl_hops hub < cl_hops leaf)%Z /\ a_person st_end (named "alice" st_end) alice /\
  exists_chan st_end (cnamed "#test" st_end) k /\ ~ local_name (ch_name k) /\ has_settings k /\ plain_members st_end (cnamed "#test" st_end) 9 /\ (exists e, on_list k "b" e) /\
  sends 8 ":irc.example.net SERVER hub.example.net 2 2 :Hub" st_end = true /\ sends 8 ":hub.example.net SERVER leaf.example.net 3 3 :Leaf" st_end = true /\ sends 8 ":irc.example.net NICK alice 1 ~alice 1.2.3.4 1 + :Real alice" st_end = true /\
  sends 8 ":irc.example.net CHANINFO #Test + :Welcome" st_end = true /\ sends 8 ":irc.example.net NJOIN #Test :dave,carol,bob,@alice" st_end = true /\ sends 8 ":irc.example.net MODE #Test +b x!*@*" st_end = true /\ sends 7 ":irc.example.net SERVER other.example.net 2 4 :Other" st_end = true.
Proof.
  destruct (done_ok st_new 8 h_other end_motd (fun c => memb "C" (cl_flags c) && memb "L" (cl_flags c) && memb "X" (cl_flags c))) as (c & cn & F & D); [apply V_reach; exact st_new_reachable|vm_compute; reflexivity|vm_compute; reflexivity|vm_compute; reflexivity|vm_compute; reflexivity|].
  apply andb_true_iff in F. destruct F as [F F3]. apply andb_true_iff in F. destruct F as [F1 F2].
  destruct (other_ok st_end h_other (named "hub.example.net" st_end)) as (hub & Oh); [vm_compute; reflexivity|]. destruct (other_ok st_end h_other (named "leaf.example.net" st_end)) as (leaf & Ol); [vm_compute; reflexivity|].
  destruct (person_ok st_end (named "alice" st_end)) as (al & Al); [vm_compute; reflexivity|].
  destruct (chas_ok st_end (cnamed "#test" st_end) (fun k => negb (Ascii.eqb (hd0 (ch_name k)) "&") && negb (beq (ch_topic k) []) && match ch_bans k with [] => false | _ => true end)) as (k & K & E); [vm_compute; reflexivity|].
  apply andb_true_iff in E. destruct E as [E E3]. apply andb_true_iff in E. destruct E as [E1 E2].
  exists c, cn, hub, leaf, al, k. split; [exact D|]. split; [exact F1|]. split; [exact F2|]. split; [exact F3|]. split; [exact Oh|]. split; [exact Ol|]. split.
  { assert (Q1 : has st_end (named "hub.example.net" st_end) (fun c => (cl_hops c =? 1)%Z) = true) by (vm_compute; reflexivity). assert (Q2 : has st_end (named "leaf.example.net" st_end) (fun c => (cl_hops c =? 2)%Z) = true) by (vm_compute; reflexivity).
    apply has_ok in Q1. apply has_ok in Q2. destruct Q1 as (c1 & (_ & K1) & Q1). destruct Q2 as (c2 & (_ & K2) & Q2). destruct Oh as ((_ & Kh) & _). destruct Ol as ((_ & Kl) & _). assert (hub = c1) by congruence. assert (leaf = c2) by congruence. subst. apply Z.eqb_eq in Q1. apply Z.eqb_eq in Q2. lia. }
  split; [exact Al|]. split; [exact K|]. split. { intros (r & Er). rewrite Er in E1. discriminate E1. } split. { right. intro Et. rewrite Et in E2. discriminate E2. } split; [apply plain_ok; vm_compute; reflexivity|]. split. { destruct (ch_bans k) as [|e l] eqn:Eb; [discriminate E3|]. exists e. left. rewrite Eb. split; [reflexivity|left; reflexivity]. }
  repeat split; vm_compute; reflexivity.
Qed.

(** ** What is not sent *)
(** A server that has been announced with a negative distance is known here, but not announced to the new link *)
Definition weird : list event := [E_Data 7 (crlf ":hub.example.net SERVER weird.example.net -5 12 :Weird"); E_Time 2015 7].
Notation st_weird := (final conf0 [peer; peer2] (two_users ++ Sessions.link ++ weird ++ login2)).
Lemma st_weird_reachable : reachable st_weird. Proof. apply reach_final; [exact conf0_ok|vm_compute; reflexivity]. Qed.
Fixpoint occurs (p l : bytes) : bool := beq (firstn (List.length p) l) p || match l with [] => false | _ :: r => occurs p r end.
Lemma occurs_ok : forall p a b, occurs p (a ++ p ++ b) = true.
Proof.
  intros p a b. induction a as [|x a IH].
  - cbn [app]. assert (E : firstn (List.length p) (p ++ b) = p) by (rewrite firstn_app, firstn_all, Nat.sub_diag; apply app_nil_r). destruct (p ++ b) eqn:Q; cbn [occurs]; rewrite E, beq_refl; reflexivity.
  - cbn [app occurs]. rewrite IH. apply orb_true_r.
Qed.
(** no line written to [i] in between contains [t], except those that begin with [q] *)
Definition no_mention (s s' : state) (i : connid) (t q : bytes) : Prop := forall new a b, s_out s' = new ++ s_out s -> In (i, a ++ t ++ b) new -> exists r, a ++ t ++ b = q ++ r.
Definition no_mention_b (s s' : state) (i : connid) (t q : bytes) : bool :=
  forallb (fun p => negb (Nat.eqb (fst p) i && occurs t (snd p)) || (negb (beq q []) && beq (firstn (List.length q) (snd p)) q)) (firstn (List.length (s_out s') - List.length (s_out s)) (s_out s')).
Lemma no_mention_ok : forall s s' i t q, no_mention_b s s' i t q = true -> no_mention s s' i t q.
Proof.
  intros s s' i t q H new a b E I. unfold no_mention_b in H. rewrite E, app_length in H. replace (List.length new + List.length (s_out s) - List.length (s_out s)) with (List.length new) in H by lia. rewrite firstn_app, firstn_all, Nat.sub_diag, app_nil_r in H. rewrite forallb_forall in H. specialize (H _ I). cbn [fst snd] in H.
  rewrite Nat.eqb_refl, occurs_ok in H. cbn [negb andb orb] in H. apply andb_true_iff in H. destruct H as [_ H]. apply beq_eq in H. exists (skipn (List.length q) (a ++ t ++ b)). rewrite <- H at 1. symmetry. apply firstn_skipn.
Qed.
Theorem C45_distance_refuted : exists c cn d, let s' := after 8 end_motd st_weird in link_done st_weird 8 (named "other.example.net" st_weird) c cn s' /\
  known s' (named "weird.example.net" s') d /\ cl_type d = T_SERVER /\ cl_id d = B "weird.example.net" /\ cl_hops d = (-5)%Z /\ forall new a b, s_out s' = new ++ s_out st_weird -> ~ In (8, a ++ B "weird" ++ b) new.
Proof.
  destruct (done_ok st_weird 8 (named "other.example.net" st_weird) end_motd (fun _ => true)) as (c & cn & _ & D); [apply V_reach; exact st_weird_reachable|vm_compute; reflexivity|vm_compute; reflexivity|vm_compute; reflexivity|vm_compute; reflexivity|].
  destruct (has_ok (after 8 end_motd st_weird) (named "weird.example.net" (after 8 end_motd st_weird)) (fun d => type_b T_SERVER d && beq (cl_id d) (B "weird.example.net") && (cl_hops d =? -5)%Z)) as (d & K & H); [vm_compute; reflexivity|].
  apply andb_true_iff in H. destruct H as [H H3]. apply andb_true_iff in H. destruct H as [H1 H2]. apply type_b_ok in H1. apply beq_eq in H2. apply Z.eqb_eq in H3. exists c, cn, d. cbv zeta. split; [exact D|]. split; [exact K|]. split; [exact H1|]. split; [exact H2|]. split; [exact H3|].
  assert (Q : no_mention_b st_weird (after 8 end_motd st_weird) 8 (B "weird") [] = true) by (vm_compute; reflexivity). intros new a b E I.
  unfold no_mention_b in Q. rewrite E, app_length in Q. replace (List.length new + List.length (s_out st_weird) - List.length (s_out st_weird)) with (List.length new) in Q by lia. rewrite firstn_app, firstn_all, Nat.sub_diag, app_nil_r in Q. rewrite forallb_forall in Q. specialize (Q _ I). cbn [fst snd] in Q. rewrite Nat.eqb_refl, occurs_ok in Q. discriminate Q.
Qed.
Print Assumptions C45_distance_refuted.
(** Long nicknames: the line with the members is cut, and the last of them is lost *)
Definition conf32 : conf := set_cf_maxnick 32 conf0.
Lemma conf32_ok : conf_ok conf32. Proof. repeat split; vm_compute; auto; try lia. Qed.
Definition longs : list string := map (fun c => String c "abcdefghijabcdefghijabcdefghij"%string) (B "ABCDEFGHIJKLMNO").
Definition many : list event := [E_Accept 7 (B "1.2.3.9") false; E_Resolved 7 [];
   E_Data 7 (lines ["PASS in 0210-IRC+ ngIRCd|26:CLMSX"; "SERVER hub.example.net 1 :Hub"]%string); E_Time 2010 7] ++
  map (fun n => E_Data 7 (crlf (":hub.example.net NICK " ++ n ++ " 1 u h 1 + :R"))) longs ++
  map (fun n => E_Data 7 (crlf (":hub.example.net NJOIN #testchannel :" ++ n))) longs.
Notation st_many := (final conf32 [peer; peer2] (many ++ login2)).
Lemma st_many_reachable : reachable st_many. Proof. apply reach_final; [exact conf32_ok|vm_compute; reflexivity]. Qed.
Definition lost : string := "Aabcdefghijabcdefghijabcdefghij".
Theorem C45_cut_refuted : exists c cn d k, let s' := after 8 end_motd st_many in let ch := cnamed "#testchannel" s' in link_done st_many 8 (named "other.example.net" st_many) c cn s' /\
  a_person s' (named lost s') d /\ cl_id d = B lost /\ exists_chan s' ch k /\ ch_name k = B "#testchannel" /\ is_on s' (named lost s') ch /\ plain_members s' ch 31 /\ no_mention st_many s' 8 (B lost) (B ":irc.example.net NICK ").
Proof.
  destruct (done_ok st_many 8 (named "other.example.net" st_many) end_motd (fun _ => true)) as (c & cn & _ & D); [apply V_reach; exact st_many_reachable|vm_compute; reflexivity|vm_compute; reflexivity|vm_compute; reflexivity|vm_compute; reflexivity|].
  destruct (has_ok (after 8 end_motd st_many) (named lost (after 8 end_motd st_many)) (fun d => type_b T_USER d && beq (cl_id d) (B lost))) as (d & K & H); [vm_compute; reflexivity|].
  apply andb_true_iff in H. destruct H as [H1 H2]. apply type_b_ok in H1. apply beq_eq in H2.
  destruct (chas_ok (after 8 end_motd st_many) (cnamed "#testchannel" (after 8 end_motd st_many)) (fun k => beq (ch_name k) (B "#testchannel"))) as (k & Kc & E); [vm_compute; reflexivity|]. apply beq_eq in E.
  exists c, cn, d, k. cbv zeta. split; [exact D|]. split; [split; [exact K|left; exact H1]|]. split; [exact H2|]. split; [exact Kc|]. split; [exact E|]. split; [apply on_b_ok; vm_compute; reflexivity|]. split; [apply plain_ok; vm_compute; reflexivity|]. apply no_mention_ok. vm_compute. reflexivity.
Qed.
Print Assumptions C45_cut_refuted.
