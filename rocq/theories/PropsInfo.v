(** Property theorems about the informational commands (C30). *)
From Coq Require Import List Ascii String ZArith NArith Bool Lia Arith.
From Verif Require Import Bytes Match Lists ParseReq State Monad Core Write Info Chan Mode Msg Login Oper Server Dispatch Conn WF RelCmd Tree Live Observ HandLine Output HandDo HandSend HandHide Sessions PropsUser PropsLogin PropsSend PropsMore PropsLink Spec SpecLink SpecInfo.
Import ListNotations.

(** ** C30 *)
(** What a user who is not on a secret channel gets from LIST (unless he is an IRC operator), from WHOIS and from
    LUSERS, with any parameters, is exactly what he would get if the channel did not exist and nobody were on it. *)
Theorem C30_list : forall s i h c text args k cc, live s -> client_of s i h c -> cl_type c = T_USER -> ~ In "o"%char (cl_modes c) -> secret_to s h k cc ->
  orders s text "LIST" args -> blind (Parse_Request i text) k s.
Proof. exact list_blind. Qed.
Print Assumptions C30_list.
Theorem C30_whois : forall s i h c text args k cc, live s -> client_of s i h c -> cl_type c = T_USER -> secret_to s h k cc ->
  orders s text "WHOIS" args -> blind (Parse_Request i text) k s.
Proof. exact whois_blind. Qed.
Print Assumptions C30_whois.
Theorem C30_lusers : forall s i h c text args k cc, live s -> client_of s i h c -> cl_type c = T_USER -> secret_to s h k cc ->
  orders s text "LUSERS" args -> blind (Parse_Request i text) k s.
Proof. exact lusers_blind. Qed.
Print Assumptions C30_lusers.
(** The same for NAMES with parameters, even when they name the channel ... *)
Theorem C30_names : forall s i h c text args k cc, live s -> client_of s i h c -> cl_type c = T_USER -> secret_to s h k cc -> own_name s k cc -> args <> [] ->
  orders s text "NAMES" args -> blind (Parse_Request i text) k s.
Proof. exact names_blind. Qed.
Print Assumptions C30_names.
(** ... and for NAMES without parameters, as long as no visible user is on the secret channel only. *)
Theorem C30_names_all_partial : forall s i h c text k cc, live s -> client_of s i h c -> cl_type c = T_USER -> secret_to s h k cc -> no_loners s k ->
  orders s text "NAMES" [] -> blind (Parse_Request i text) k s.
Proof. exact names_all_blind. Qed.
Print Assumptions C30_names_all_partial.
(** The same for WHO, as long as the first parameter is not the name of the channel. *)
Theorem C30_who_partial : forall s i h c text args k cc, live s -> client_of s i h c -> cl_type c = T_USER -> secret_to s h k cc -> (forall a r, args = a :: r -> ~ same_name a (ch_name cc)) ->
  orders s text "WHO" args -> blind (Parse_Request i text) k s.
Proof. exact who_blind. Qed.
Print Assumptions C30_who_partial.

(** alice has made #Secret secret, bob is not on it; in [st_eve], eve is on it, and on no other channel *)
Notation st_sec := (final conf0 [] (two_users ++ [E_Time 3020 7; E_Data 5 (crlf "JOIN #Secret"); E_Time 3030 7; E_Data 5 (crlf "MODE #Secret +s"); E_Time 3040 7])).
Lemma st_sec_reachable : reachable st_sec.
Proof. apply reach_final; [exact conf0_ok|vm_compute; reflexivity]. Qed.
Notation st_eve := (final conf0 [] (two_users ++ login 9 "1.2.3.7" "eve" ++ [E_Time 3020 7; E_Data 5 (crlf "JOIN #Secret"); E_Time 3030 7; E_Data 5 (crlf "MODE #Secret +s"); E_Time 3040 7; E_Data 9 (crlf "JOIN #Secret"); E_Time 3050 7])).
Lemma st_eve_reachable : reachable st_eve.
Proof. apply reach_final; [exact conf0_ok|vm_compute; reflexivity]. Qed.
Definition loners_b (ch : chandle) (s : state) : bool :=
  forallb (fun m => negb (Nat.eqb (mb_chan m) ch) || existsb (fun m' => Nat.eqb (mb_client m') (mb_client m) && negb (Nat.eqb (mb_chan m') ch)) (s_members s)) (s_members s).
Lemma loners_ok : forall ch s, loners_b ch s = true -> no_loners s ch.
Proof.
  intros ch s H g d (m & I & E1 & E2) _. unfold loners_b in H. rewrite forallb_forall in H. specialize (H _ I). apply orb_prop in H. destruct H as [H|H]; [rewrite E2, Nat.eqb_refl in H; discriminate|].
  left. apply existsb_exists in H. destruct H as (m' & I' & H). apply andb_prop in H. destruct H as [H1 H2]. apply Nat.eqb_eq in H1. apply negb_true_iff, Nat.eqb_neq in H2. exists (mb_chan m'). split; [exact H2|]. exists m'. split; [exact I'|]. split; [congruence|reflexivity].
Qed.
Definition own_b (ch : chandle) (c : channel) (s : state) : bool := forallb (fun p => Nat.eqb (fst p) ch || negb (caseeq (ch_name (snd p)) (ch_name c))) (s_chans s).
Lemma own_ok : forall ch c s, own_b ch c s = true -> own_name s ch c.
Proof.
  intros ch c s H k d I NE S. unfold own_b in H. rewrite forallb_forall in H. specialize (H _ I). cbn [fst snd] in H. apply orb_prop in H. destruct H as [H|H]; [apply Nat.eqb_eq in H; contradiction|].
  apply same_name_iff in S. rewrite S in H. discriminate.
Qed.
Lemma secret_ok : forall s h ch k, exists_chan s ch k -> memb "s" (ch_modes k) = true -> on_b h ch s = false -> secret_to s h ch k.
Proof. intros s h ch k K M O. split; [exact K|]. split; [apply memb_In; exact M|apply not_on_b; exact O]. Qed.
Example C30_nonvacuous : exists c k, let bob := named "bob" st_sec in let ch := cnamed "#Secret" st_sec in
  live st_sec /\ client_of st_sec 6 bob c /\ cl_type c = T_USER /\ ~ In "o"%char (cl_modes c) /\ secret_to st_sec bob ch k /\ own_name st_sec ch k /\ no_loners st_sec ch /\ (exists g, is_on st_sec g ch) /\
  orders st_sec (B "LIST") "LIST" [] /\ orders st_sec (B "WHOIS alice") "WHOIS" [B "alice"] /\ orders st_sec (B "LUSERS") "LUSERS" [] /\ orders st_sec (B "NAMES #SECRET") "NAMES" [B "#SECRET"] /\ orders st_sec (B "NAMES") "NAMES" [] /\
  orders st_sec (B "WHO *") "WHO" [B "*"] /\ (forall a r, [B "*"] = a :: r -> ~ same_name a (ch_name k)) /\
  (exists s', Parse_Request 6 (B "LIST") st_sec = Ok CONNECTED s' /\ sends 6 ":irc.example.net 322 bob #Test 2 :" s' = true) /\ (exists s', Parse_Request 6 (B "WHOIS alice") st_sec = Ok CONNECTED s' /\ sends 6 ":irc.example.net 319 bob alice :@#Test" s' = true) /\
  (exists s', Parse_Request 6 (B "NAMES") st_sec = Ok CONNECTED s' /\ sends 6 ":irc.example.net 353 bob = #Test :bob @alice" s' = true).
Proof.
  destruct (serves_ok st_sec 6 (named "bob" st_sec) (fun c => type_b T_USER c && negb (memb "o" (cl_modes c)))) as (c & C & T); [vm_compute; reflexivity|]. apply andb_prop in T. destruct T as [T1 T2]. apply type_b_ok in T1.
  destruct (chas_ok st_sec (cnamed "#Secret" st_sec) (fun k => memb "s" (ch_modes k) && own_b (cnamed "#Secret" st_sec) k st_sec && negb (caseeq (B "*") (ch_name k)))) as (k & K & PK); [vm_compute; reflexivity|]. rewrite !andb_true_iff in PK. destruct PK as [[P1 P2] P3].
  exists c, k. cbv zeta. split; [apply V_reach; exact st_sec_reachable|]. split; [exact C|]. split; [exact T1|]. split; [apply not_In_b; apply negb_true_iff; exact T2|]. split; [apply (secret_ok _ _ _ _ K P1); vm_compute; reflexivity|].
  split; [apply own_ok; exact P2|]. split; [apply loners_ok; vm_compute; reflexivity|]. split; [exists (named "alice" st_sec); apply on_b_ok; vm_compute; reflexivity|]. do 6 (split; [apply orders_b; vm_compute; reflexivity|]).
  split. { intros a r E. injection E as <- <-. intro S. apply same_name_iff in S. change (B "*") with ["*"%char] in P3. rewrite S in P3. discriminate P3. }
  split. { destruct (doing_ok _ (Parse_Request 6 (B "LIST")) st_sec (fun b s => b && sends 6 ":irc.example.net 322 bob #Test 2 :" s)) as (b & s' & H & R); [vm_compute; reflexivity|]. apply andb_prop in R. destruct R as [-> R]. exists s'. split; [exact H|exact R]. }
  split. { destruct (doing_ok _ (Parse_Request 6 (B "WHOIS alice")) st_sec (fun b s => b && sends 6 ":irc.example.net 319 bob alice :@#Test" s)) as (b & s' & H & R); [vm_compute; reflexivity|]. apply andb_prop in R. destruct R as [-> R]. exists s'. split; [exact H|exact R]. }
  destruct (doing_ok _ (Parse_Request 6 (B "NAMES")) st_sec (fun b s => b && sends 6 ":irc.example.net 353 bob = #Test :bob @alice" s)) as (b & s' & H & R); [vm_compute; reflexivity|]. apply andb_prop in R. destruct R as [-> R]. exists s'. split; [exact H|exact R].
Qed.
(** NAMES without parameters ends with a list of the users who are on no channel at all: eve is missing there, which
    tells bob that she is on a channel he cannot see. *)
Theorem C30_names_all_refuted : exists c k s' s2, let bob := named "bob" st_eve in let ch := cnamed "#Secret" st_eve in
  live st_eve /\ client_of st_eve 6 bob c /\ cl_type c = T_USER /\ ~ In "o"%char (cl_modes c) /\ secret_to st_eve bob ch k /\ orders st_eve (B "NAMES") "NAMES" [] /\
  Parse_Request 6 (B "NAMES") st_eve = Ok CONNECTED s' /\ sends 6 ":irc.example.net 353 bob * * :eve" s' = false /\
  Parse_Request 6 (B "NAMES") (without ch st_eve) = Ok CONNECTED s2 /\ sends 6 ":irc.example.net 353 bob * * :eve" s2 = true.
Proof.
  destruct (serves_ok st_eve 6 (named "bob" st_eve) (fun c => type_b T_USER c && negb (memb "o" (cl_modes c)))) as (c & C & T); [vm_compute; reflexivity|]. apply andb_prop in T. destruct T as [T1 T2]. apply type_b_ok in T1.
  destruct (chas_ok st_eve (cnamed "#Secret" st_eve) (fun k => memb "s" (ch_modes k))) as (k & K & P1); [vm_compute; reflexivity|].
  destruct (doing_ok _ (Parse_Request 6 (B "NAMES")) st_eve (fun b s => b && negb (sends 6 ":irc.example.net 353 bob * * :eve" s))) as (b & s' & H & R); [vm_compute; reflexivity|]. apply andb_prop in R. destruct R as [-> R].
  destruct (doing_ok _ (Parse_Request 6 (B "NAMES")) (without (cnamed "#Secret" st_eve) st_eve) (fun b s => b && sends 6 ":irc.example.net 353 bob * * :eve" s)) as (b & s2 & H2 & R2); [vm_compute; reflexivity|]. apply andb_prop in R2. destruct R2 as [-> R2].
  exists c, k, s', s2. cbv zeta. split; [apply V_reach; exact st_eve_reachable|]. split; [exact C|]. split; [exact T1|]. split; [apply not_In_b; apply negb_true_iff; exact T2|]. split; [apply (secret_ok _ _ _ _ K P1); vm_compute; reflexivity|].
  split; [apply orders_b; vm_compute; reflexivity|]. split; [exact H|]. split; [apply negb_true_iff; exact R|]. split; [exact H2|exact R2].
Qed.
Print Assumptions C30_names_all_refuted.
(** WHO for the name of a secret channel tells that the channel exists: the reply has the name as the channel has it,
    and not as it was asked for. *)
Theorem C30_who_refuted : exists c k s' s2, let bob := named "bob" st_eve in let ch := cnamed "#Secret" st_eve in
  live st_eve /\ client_of st_eve 6 bob c /\ cl_type c = T_USER /\ ~ In "o"%char (cl_modes c) /\ secret_to st_eve bob ch k /\ orders st_eve (B "WHO #secret") "WHO" [B "#secret"] /\
  Parse_Request 6 (B "WHO #secret") st_eve = Ok CONNECTED s' /\ sends 6 ":irc.example.net 315 bob #Secret :End of WHO list" s' = true /\
  Parse_Request 6 (B "WHO #secret") (without ch st_eve) = Ok CONNECTED s2 /\ sends 6 ":irc.example.net 315 bob #Secret :End of WHO list" s2 = false /\ sends 6 ":irc.example.net 315 bob #secret :End of WHO list" s2 = true.
Proof.
  destruct (serves_ok st_eve 6 (named "bob" st_eve) (fun c => type_b T_USER c && negb (memb "o" (cl_modes c)))) as (c & C & T); [vm_compute; reflexivity|]. apply andb_prop in T. destruct T as [T1 T2]. apply type_b_ok in T1.
  destruct (chas_ok st_eve (cnamed "#Secret" st_eve) (fun k => memb "s" (ch_modes k))) as (k & K & P1); [vm_compute; reflexivity|].
  destruct (doing_ok _ (Parse_Request 6 (B "WHO #secret")) st_eve (fun b s => b && sends 6 ":irc.example.net 315 bob #Secret :End of WHO list" s)) as (b & s' & H & R); [vm_compute; reflexivity|]. apply andb_prop in R. destruct R as [-> R].
  destruct (doing_ok _ (Parse_Request 6 (B "WHO #secret")) (without (cnamed "#Secret" st_eve) st_eve) (fun b s => b && negb (sends 6 ":irc.example.net 315 bob #Secret :End of WHO list" s) && sends 6 ":irc.example.net 315 bob #secret :End of WHO list" s)) as (b & s2 & H2 & R2); [vm_compute; reflexivity|]. rewrite !andb_true_iff, negb_true_iff in R2. destruct R2 as [[-> R2] R3].
  exists c, k, s', s2. cbv zeta. split; [apply V_reach; exact st_eve_reachable|]. split; [exact C|]. split; [exact T1|]. split; [apply not_In_b; apply negb_true_iff; exact T2|]. split; [apply (secret_ok _ _ _ _ K P1); vm_compute; reflexivity|].
  split; [apply orders_b; vm_compute; reflexivity|]. split; [exact H|]. split; [exact R|]. split; [exact H2|]. split; [exact R2|exact R3].
Qed.
Print Assumptions C30_who_refuted.
