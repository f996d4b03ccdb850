(** C40: a command only interprets its own parameters.

    Where the C code would read behind the end of a string, the model stops with
    [Bad W_OverRead]; the theorems say for which lines, in whatever state of the server, this
    cannot happen, and show lines for which it does. *)
From Coq Require Import List Ascii String ZArith NArith Bool Lia Arith.
From Verif Require Import Bytes Match Lists Hash ParseReq State Messages Monad Core Write Info Chan Mode Msg Login Oper Server Dispatch Conn
  Safe0 Safe2 Safe Spec Observ Sessions.
Import ListNotations.

(** MODE for users and channels, any mode string, any parameters, any state, any sender: if no
    parameter behind the mode string is empty, nothing outside of the parameters is read. *)
Theorem C40_mode_partial : forall s i line req, parse_line (trim line) = Some req -> same_name (rq_command req) (B "MODE") ->
  (forall a, In a (skipn 2 (rq_args req)) -> a <> []) -> Parse_Request i line s <> Bad W_OverRead.
Proof. exact mode_reads_parameters. Qed.
Print Assumptions C40_mode_partial.
(** all other commands, except ISON and USERHOST *)
Theorem C40_other_commands_partial : forall s i line,
  (forall req, parse_line (trim line) = Some req ->
     forall n, In n ["MODE"; "ISON"; "USERHOST"]%string -> ~ same_name (rq_command req) (B n)) ->
  Parse_Request i line s <> Bad W_OverRead.
Proof. exact others_read_parameters. Qed.
Print Assumptions C40_other_commands_partial.

(** An empty last parameter makes MODE read on behind the end of the line, for user modes ... *)
Theorem C40_refuted : reachable st_link /\ Parse_Request 5 (B "MODE alice +i :") st_link = Bad W_OverRead.
Proof. split; [exact st_link_reachable|]. vm_compute. reflexivity. Qed.
Print Assumptions C40_refuted.
(** ... and channel modes; *)
Theorem C40_channel_refuted : reachable st_link /\ Parse_Request 5 (B "MODE #test +m :") st_link = Bad W_OverRead.
Proof. split; [exact st_link_reachable|]. vm_compute. reflexivity. Qed.
Print Assumptions C40_channel_refuted.
(** a linked server may introduce a user with a name that contains a conversion of printf(3): USERHOST then uses it as one. *)
Definition st_format : state := final conf0 [peer] (two_users ++ link ++ [E_Time 2100 7; E_Data 7 (lines [":hub.example.net NICK zoe 1 z%s host.example.org 1 + :Zoe"]%string)]).
Theorem C40_format_refuted : reachable st_format /\ Parse_Request 5 (B "USERHOST zoe") st_format = Bad W_OverRead.
Proof. split; [apply reach_final; [exact conf0_ok|vm_compute; reflexivity]|]. vm_compute. reflexivity. Qed.
Print Assumptions C40_format_refuted.

(** The hypotheses are met by ordinary commands, and these do succeed. *)
Example C40_nonvacuous : exists req, parse_line (trim (B "MODE #test +ob-o bob *!*@evil bob")) = Some req /\ same_name (rq_command req) (B "MODE") /\
  (forall a, In a (skipn 2 (rq_args req)) -> a <> []) /\ exists b s', Parse_Request 5 (B "MODE #test +ob-o bob *!*@evil bob") st_link = Ok b s'.
Proof.
  eexists. split; [vm_compute; reflexivity|]. split; [vm_compute; reflexivity|]. split.
  - intros a Ia. vm_compute in Ia. decompose [or] Ia; subst; discriminate || contradiction.
  - destruct (doing_ok _ (Parse_Request 5 (B "MODE #test +ob-o bob *!*@evil bob")) st_link (fun _ _ => true)) as (b & s' & H & R); [vm_compute; reflexivity|]. eauto.
Qed.
