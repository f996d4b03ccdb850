(** Property theorem about what is told when a server introduces a user or a server (C28). *)
From Coq Require Import List Ascii String ZArith NArith Bool Lia Arith.
From Verif Require Import Bytes Match Lists ParseReq State Monad Core Write Info Chan Mode Msg Login Oper Server Dispatch Conn WF RelCmd Tree Live Observ HandLine Output HandDo HandSend HandCast HandNick HandIntro HandNewServer Sessions PropsUser PropsLogin PropsSend PropsMore PropsLink PropsNick PropsJoin PropsMode PropsKill Spec SpecLink SpecNick SpecKill SpecSync.
Import ListNotations.

(** ** C28 *)
(** A NICK with seven parameters, which the linked server on connection [i] sends in the name of [d], and a nickname
    that nobody has: if this link introduced a server with the given token, then a new client is known.  A client who
    is new is a user or service with the nickname that was given (63 bytes of it), he has the user name, host name, real name and distance that were given (or the nickname in place of the first and
    the third, if so configured; the host name if cloaking is off), he is on the server with this
    token, and on no connection of this server; every other linked server (with the protocol of RFC 2813) is told
    exactly once about him, in the name of the server on connection [i]; nobody else is sent anything. *)
Theorem C28_introduce_partial : forall s i h c text p u d name nick hops user host tok md real b s', live s -> undisturbed s -> client_of s i h c -> cl_type c = T_SERVER ->
  parse_line (trim text) = Some (mkReq (Some p) name [nick; hops; user; host; tok; md; real]) -> same_name name (B "NICK") -> the_client s p u d -> next_hop s u h -> cl_id d <> [] ->
  (cf_scrubctcp (s_conf s) = true -> ~ exists x y, trim text = x ++ ":"%char :: "001"%char :: y) ->
  (forall g, ~ called s nick g) -> Parse_Request i text s = Ok b s' ->
  (atoi tok <> 0%Z -> (exists q x, known s q x /\ cl_type x = T_SERVER /\ cl_introducer x = Some h /\ cl_token x = atoi tok) -> exists g e, lookup g (s_heap s) = None /\ lookup g (s_heap s') = Some e) /\
  forall g e, lookup g (s_heap s) = None -> lookup g (s_heap s') = Some e ->
  (cl_type e = T_USER \/ cl_type e = T_SERVICE) /\ cl_id e = firstn 63 nick /\ cl_conn e = None /\ cl_modes e = firstn 20 (tl md) /\
  cl_hops e = atoi hops /\ (if cf_cloakusertonick (s_conf s) then cl_user e = firstn 19 nick /\ cl_info e = firstn 63 nick else cl_user e = firstn 19 user /\ cl_info e = firstn 127 real) /\ (cf_cloakhost (s_conf s) = [] -> cl_host e = firstn 63 host) /\
  (exists q x, cl_introducer e = Some q /\ lookup q (s_heap s') = Some x /\ cl_type x = T_SERVER /\ cl_introducer x = Some h /\ cl_token x = atoi tok) /\
  exists line : client -> bytes, (forall x, user_line s' x e false c (line x)) /\
  forall j, (is_open s j = true -> forall x cn, link s j x -> i <> j -> lookup j (s_conns s) = Some cn -> co_rfc1459 cn = false -> written s s' j [on_wire (line x)]) /\
    (i = j \/ (forall x, ~ link s j x) -> written s s' j []).
Proof. exact introduced. Qed.
Print Assumptions C28_introduce_partial.

(** A SERVER with four parameters, which the linked server on connection [i] sends in the name of the server [d], and
    a name that nobody has: the new server is known, behind this link and reached through [d], with the description that was given (or its
    name, if so configured); every other linked
    server is told exactly once about it, in the name of [d], with one hop more and the token this server gave to it;
    nobody else is sent anything, except those with mode "s" or on &SERVER, who are left out here. *)
Theorem C28_server_partial : forall s i h c text p u d name id hops tok info b s', live s -> undisturbed s -> server_settled s -> client_of s i h c -> cl_type c = T_SERVER ->
  parse_line (trim text) = Some (mkReq (Some p) name [id; hops; tok; info]) -> same_name name (B "SERVER") -> the_client s p u d -> next_hop s u h -> cl_id d <> [] ->
  (cf_scrubctcp (s_conf s) = true -> ~ exists x y, trim text = x ++ ":"%char :: "001"%char :: y) ->
  (List.length id <= 64)%nat -> (forall g x, known s g x -> ~ same_name (cl_id x) id) -> Parse_Request i text s = Ok b s' ->
  exists g e, lookup g (s_heap s) = None /\ lookup g (s_heap s') = Some e /\ cl_type e = T_SERVER /\ cl_id e = firstn 63 id /\ cl_conn e = None /\ cl_introducer e = Some h /\ cl_topserver e = Some u /\ cl_hops e = atoi hops /\ cl_token e = atoi tok /\ cl_info e = firstn 127 (if cf_cloakusertonick (s_conf s) then firstn 63 id else info) /\
  forall j, is_open s j = true -> ~ warned s j ->
  (forall x, link s j x -> written s s' j (if (i =? j)%nat then [] else [relayed d (server_text e)])) /\
  ((forall x, ~ link s j x) -> written s s' j []).
Proof. exact server_introduced. Qed.
Print Assumptions C28_server_partial.

(** ** examples *)
Definition nobody_b (s : state) (p : bytes) : bool := forallb (fun x => negb (caseeq (cl_id (snd x)) (nick_part p))) (s_heap s).
Lemma nobody_ok : forall s p, nobody_b s p = true -> forall g, ~ called s p g.
Proof.
  intros s p H g (d & [_ K] & E). unfold nobody_b in H. rewrite forallb_forall in H. rewrite lookup_assoc in K. apply assoc_In in K. specialize (H _ K). cbn [snd] in H. apply same_name_iff in E. rewrite E in H. discriminate H.
Qed.
(** the server on connection 7 introduces zoe: the other server is told, with the token that this server gave to hers *)
Example C28_introduce_nonvacuous : exists c s', let hub := named "hub.example.net" st_two in let text := B ":hub.example.net NICK zoe 1 zoe host.example.org 1 +i :Zoe" in
  live st_two /\ undisturbed st_two /\ client_of st_two 7 hub c /\ cl_type c = T_SERVER /\
  parse_line (trim text) = Some (mkReq (Some (B "hub.example.net")) (B "NICK") [B "zoe"; B "1"; B "zoe"; B "host.example.org"; B "1"; B "+i"; B "Zoe"]) /\
  the_client st_two (B "hub.example.net") hub c /\ next_hop st_two hub hub /\ cl_id c <> [] /\ (forall g, ~ called st_two (B "zoe") g) /\
  cl_introducer c = Some hub /\ cl_token c = 1%Z /\ cl_mytoken c = 2%Z /\
  (exists x, link st_two 8 x) /\ is_open st_two 8 = true /\ (exists cn, lookup 8%nat (s_conns st_two) = Some cn /\ co_rfc1459 cn = false) /\
  Parse_Request 7 text st_two = Ok CONNECTED s' /\ sends 8 ":hub.example.net NICK zoe 2 zoe host.example.org 2 +i :Zoe" s' = true /\ more 8 1 st_two s' = true /\ more 7 0 st_two s' = true /\ more 5 0 st_two s' = true.
Proof.
  destruct (serves_ok st_two 7 (named "hub.example.net" st_two) (fun c => type_b T_SERVER c && negb (beq (cl_id c) []) && match cl_introducer c with Some x => Nat.eqb x (named "hub.example.net" st_two) | None => false end && Z.eqb (cl_token c) 1 && Z.eqb (cl_mytoken c) 2)) as (c & C & T); [vm_compute; reflexivity|].
  rewrite !andb_true_iff, negb_true_iff in T. destruct T as [[[[T T1] T2] T3] T4]. apply type_b_ok in T. apply Z.eqb_eq in T3, T4.
  assert (I : cl_introducer c = Some (named "hub.example.net" st_two)). { destruct (cl_introducer c) as [x|]; [|discriminate T2]. apply Nat.eqb_eq in T2. rewrite T2. reflexivity. }
  destruct (doing_ok _ (Parse_Request 7 (B ":hub.example.net NICK zoe 1 zoe host.example.org 1 +i :Zoe")) st_two (fun b s => b && sends 8 ":hub.example.net NICK zoe 2 zoe host.example.org 2 +i :Zoe" s && more 8 1 st_two s && more 7 0 st_two s && more 5 0 st_two s)) as (b & s' & H & R); [vm_compute; reflexivity|]. rewrite !andb_true_iff in R. destruct R as [[[[R1 R2] R3] R4] R5].
  destruct (has_ok st_two (named "hub.example.net" st_two) (type_b T_SERVER)) as (c2 & K1 & _); [vm_compute; reflexivity|].
  assert (c2 = c) by (destruct C as [_ C]; destruct K1 as [_ K1]; congruence). subst c2.
  exists c, s'. cbv zeta. split; [apply V_reach; exact st_two_reachable|]. split; [apply calm_ok; vm_compute; reflexivity|]. split; [exact C|]. split; [exact T|]. split; [vm_compute; reflexivity|].
  split; [apply the_client_ok; [exact K1|vm_compute; reflexivity]|]. split; [eapply NH_direct; [exact (proj2 K1)|right; left; exact I]|]. split; [intro X; rewrite X in T1; discriminate T1|]. split; [apply nobody_ok; vm_compute; reflexivity|].
  split; [exact I|]. split; [exact T3|]. split; [exact T4|]. split; [apply (link_is_ok _ _ (named "other.example.net" st_two)); vm_compute; reflexivity|]. split; [vm_compute; reflexivity|].
  split. { assert (E : match lookup 8%nat (s_conns st_two) with Some cn => negb (co_rfc1459 cn) | None => false end = true) by (vm_compute; reflexivity). destruct (lookup 8%nat (s_conns st_two)) as [cn|]; [|discriminate E]. exists cn. split; [reflexivity|]. apply negb_true_iff in E. exact E. }
  split; [rewrite H, R1; reflexivity|auto].
Qed.

Definition noname_b (s : state) (n : bytes) : bool := forallb (fun x => negb (caseeq (cl_id (snd x)) n)) (s_heap s).
Lemma noname_ok : forall s n, noname_b s n = true -> forall g x, known s g x -> ~ same_name (cl_id x) n.
Proof.
  intros s n H g d [_ K] E. unfold noname_b in H. rewrite forallb_forall in H. rewrite lookup_assoc in K. apply assoc_In in K. specialize (H _ K). cbn [snd] in H. apply same_name_iff in E. rewrite E in H. discriminate H.
Qed.
(** the server on connection 7 introduces a server behind it *)
Example C28_server_nonvacuous : exists c s', let hub := named "hub.example.net" st_two in let text := B ":hub.example.net SERVER far.example.net 2 5 :Far" in
  live st_two /\ undisturbed st_two /\ server_settled st_two /\ client_of st_two 7 hub c /\ cl_type c = T_SERVER /\
  parse_line (trim text) = Some (mkReq (Some (B "hub.example.net")) (B "SERVER") [B "far.example.net"; B "2"; B "5"; B "Far"]) /\
  the_client st_two (B "hub.example.net") hub c /\ next_hop st_two hub hub /\ cl_id c <> [] /\ (forall g x, known st_two g x -> ~ same_name (cl_id x) (B "far.example.net")) /\
  (exists x, link st_two 7 x) /\ (exists x, link st_two 8 x) /\ (forall j, In j [5; 6; 7; 8]%nat -> is_open st_two j = true /\ ~ warned st_two j) /\
  Parse_Request 7 text st_two = Ok CONNECTED s' /\ sends 8 ":hub.example.net SERVER far.example.net 3 5 :Far" s' = true /\ more 8 1 st_two s' = true /\ more 7 0 st_two s' = true /\ more 5 0 st_two s' = true.
Proof.
  destruct (serves_ok st_two 7 (named "hub.example.net" st_two) (fun c => type_b T_SERVER c && negb (beq (cl_id c) []) && match cl_introducer c with Some x => Nat.eqb x (named "hub.example.net" st_two) | None => false end)) as (c & C & T); [vm_compute; reflexivity|].
  rewrite !andb_true_iff, negb_true_iff in T. destruct T as [[T T1] T2]. apply type_b_ok in T.
  assert (I : cl_introducer c = Some (named "hub.example.net" st_two)). { destruct (cl_introducer c) as [x|]; [|discriminate T2]. apply Nat.eqb_eq in T2. rewrite T2. reflexivity. }
  destruct (doing_ok _ (Parse_Request 7 (B ":hub.example.net SERVER far.example.net 2 5 :Far")) st_two (fun b s => b && sends 8 ":hub.example.net SERVER far.example.net 3 5 :Far" s && more 8 1 st_two s && more 7 0 st_two s && more 5 0 st_two s)) as (b & s' & H & R); [vm_compute; reflexivity|]. rewrite !andb_true_iff in R. destruct R as [[[[R1 R2] R3] R4] R5].
  destruct (has_ok st_two (named "hub.example.net" st_two) (type_b T_SERVER)) as (c2 & K1 & _); [vm_compute; reflexivity|].
  assert (c2 = c) by (destruct C as [_ C]; destruct K1 as [_ K1]; congruence). subst c2.
  exists c, s'. cbv zeta. split; [apply V_reach; exact st_two_reachable|]. split; [apply calm_ok; vm_compute; reflexivity|]. split; [apply settled_ok; vm_compute; reflexivity|]. split; [exact C|]. split; [exact T|]. split; [vm_compute; reflexivity|].
  split; [apply the_client_ok; [exact K1|vm_compute; reflexivity]|]. split; [eapply NH_direct; [exact (proj2 K1)|right; left; exact I]|]. split; [intro X; rewrite X in T1; discriminate T1|]. split; [apply noname_ok; vm_compute; reflexivity|].
  split; [apply (link_is_ok _ _ (named "hub.example.net" st_two)); vm_compute; reflexivity|]. split; [apply (link_is_ok _ _ (named "other.example.net" st_two)); vm_compute; reflexivity|].
  split; [intros j J; cbn in J; destruct J as [<- |[<- |[<- |[<- |[]]]]]; (split; [vm_compute; reflexivity|]; apply warn_ok; vm_compute; reflexivity)|].
  split; [rewrite H, R1; reflexivity|auto].
Qed.
