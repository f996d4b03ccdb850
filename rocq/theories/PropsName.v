(** Property theorems about the names of the channels that users create (C10). *)
From Coq Require Import List Ascii String ZArith NArith Bool Lia Arith.
From Verif Require Import Bytes Match Lists ParseReq State Monad Core Write Info Chan Mode Msg Login Oper Server Dispatch Conn WF RelCmd Tree Live Observ HandNames Sessions PropsUser PropsLogin PropsSend PropsMore PropsLink PropsJoin Spec.
Import ListNotations.

(** ** C10 *)
(** One line of a registered local user: every channel there is afterwards existed before, or the line is a JOIN
    command that has its name in its list of channels, the name starts with one of the configured prefixes, and it is
    legal: it starts with one of # & +, has less than 51 bytes and contains no blank, comma, colon or ^G. *)
Theorem C10_join : forall s i h c text b s', live s -> undisturbed s -> client_of s i h c -> cl_type c = T_USER -> ~ In NUL text -> Parse_Request i text s = Ok b s' ->
  forall ch k', exists_chan s' ch k' -> (exists k, exists_chan s ch k) \/
  exists args name x r, says text "JOIN" args /\ In name (strtok "," (nth 0 args [])) /\ ch_name k' = name /\ name = x :: r /\ In x (cf_chantypes (s_conf s)) /\ legal_chan name.
Proof. exact join_names. Qed.
Print Assumptions C10_join.
(** bob makes two channels with one command *)
Example C10_join_nonvacuous : exists c k s', let bob := named "bob" st_only in let text := B "JOIN #new,new,+other" in
  live st_only /\ undisturbed st_only /\ client_of st_only 6 bob c /\ cl_type c = T_USER /\ ~ In NUL text /\ Parse_Request 6 text st_only = Ok CONNECTED s' /\
  (forall k, ~ exists_chan st_only (s_chnext st_only) k) /\ exists_chan s' (s_chnext st_only) k /\ ch_name k = B "#new" /\ s_chnext s' = S (S (s_chnext st_only)).
Proof.
  destruct (serves_ok st_only 6 (named "bob" st_only) (type_b T_USER)) as (c & C & T); [vm_compute; reflexivity|]. apply type_b_ok in T.
  destruct (doing_ok _ (Parse_Request 6 (B "JOIN #new,new,+other")) st_only (fun b s => b && chas s (s_chnext st_only) (fun k => beq (ch_name k) (B "#new")) && Nat.eqb (s_chnext s) (S (S (s_chnext st_only))))) as (b & s' & H & R); [vm_compute; reflexivity|].
  rewrite !andb_true_iff in R. destruct R as [[R1 R2] R3]. destruct (chas_ok _ _ _ R2) as (k & K & U). apply beq_eq in U. apply Nat.eqb_eq in R3.
  exists c, k, s'. cbv zeta. split; [apply V_reach; exact st_only_reachable|]. split; [apply calm_ok; vm_compute; reflexivity|]. split; [exact C|]. split; [exact T|]. split; [apply not_In_b; vm_compute; reflexivity|]. split; [rewrite H, R1; reflexivity|].
  split; [|auto]. intros k0 K0. assert (Z : chas st_only (s_chnext st_only) (fun _ => true) = false) by (vm_compute; reflexivity). unfold chas in Z. unfold exists_chan in K0. rewrite K0 in Z. discriminate Z.
Qed.
