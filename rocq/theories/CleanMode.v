(** Generated by tools/gen_clv.py from Mode.v: its functions keep strings clean (C08). *)
From Coq Require Import List Ascii String ZArith NArith Bool Lia Arith.
From Verif Require Import Bytes Strl Match Lists Hash ParseReq State Messages Monad Core Write Info Chan Mode Clean0 CleanRec Clean CleanTac CleanLists CleanParseReq CleanCore CleanWrite CleanInfo CleanChan .
Import ListNotations.
Local Open Scope m_scope.

Record clean_cmst (r : cmst) : Prop := mk_clean_cmst { k_cm_args : clv (cm_args r); k_cm_pos : clv (cm_pos r); k_cm_modes : clv (cm_modes r); k_cm_astr : clv (cm_astr r) }.
#[export] Instance Cl_cmst : Cl cmst := clean_cmst.
#[export] Instance Cl_verdict : Cl verdict := fun v => match v with V_Exit _ => True | V_Next _ st x a _ => clv st /\ clv x /\ clv a end.
Lemma clv_mkCm : forall a p m aa se sk mo ast c h o ad q, clv a -> clv p -> clv mo -> clv ast -> clv (mkCm a p m aa se sk mo ast c h o ad q).
Proof. intros; constructor; assumption. Qed.
Lemma clv_cm_args : forall r, clv r -> clv (cm_args r). Proof. intros r H. apply H. Qed.
Lemma clv_cm_pos : forall r, clv r -> clv (cm_pos r). Proof. intros r H. apply H. Qed.
Lemma clv_cm_modes : forall r, clv r -> clv (cm_modes r). Proof. intros r H. apply H. Qed.
Lemma clv_cm_astr : forall r, clv r -> clv (cm_astr r). Proof. intros r H. apply H. Qed.
Lemma clv_V_Exit : forall b, clv (V_Exit b). Proof. intros; exact I. Qed.
Lemma clv_V_Next : forall b st x a t, clv st -> clv x -> clv a -> clv (V_Next b st x a t). Proof. intros; split; [assumption|split; assumption]. Qed.
#[export] Hint Resolve clv_mkCm clv_cm_args clv_cm_pos clv_cm_modes clv_cm_astr clv_V_Exit clv_V_Next : clv.
Lemma clv_V_inv : forall b st x a t, clv (V_Next b st x a t) -> clv st /\ clv x /\ clv a. Proof. intros b st x a t H. exact H. Qed.
Ltac inv_more H ::= lazymatch type of H with
  | @clv _ _ (V_Next _ _ _ _ _) => let H1 := fresh "Hc" in let H2 := fresh "Hc" in let H3 := fresh "Hc" in apply clv_V_inv in H; destruct H as (H1 & H2 & H3)
  | _ => idtac end.
Lemma clv_Mode_Limit_Reached : forall (h : handle) (count : Z), clv (Mode_Limit_Reached h count).
Proof. intros. unfold Mode_Limit_Reached. cl_all. Qed.
#[export] Hint Resolve clv_Mode_Limit_Reached : clv.
Lemma clv_last_char : forall (s : bytes), clv s -> clv (last_char s).
Proof. intros. unfold last_char. cl_all. Qed.
#[export] Hint Resolve clv_last_char : clv.
Lemma clv_change_action : forall (the_modes : bytes) (c : ascii), clv the_modes -> clv c -> clv (change_action the_modes c).
Proof. intros. unfold change_action. cl_all. Qed.
#[export] Hint Resolve clv_change_action : clv.
Lemma clv_clean_modes : forall (the_modes : bytes), clv the_modes -> clv (clean_modes the_modes).
Proof. intros. unfold clean_modes. cl_all. Qed.
#[export] Hint Resolve clv_clean_modes : clv.
Lemma clv_sign : forall (set : bool), clv (sign set).
Proof. intros. unfold sign. cl_all. Qed.
#[export] Hint Resolve clv_sign : clv.
Lemma clv_user_letter : forall (client : handle) (origin : handle) (set : bool) (c : ascii), clv c -> clv (user_letter client origin set c).
Proof. intros. unfold user_letter. cl_all. Qed.
#[export] Hint Resolve clv_user_letter : clv.
Lemma clv_next_mode : forall (pos : bytes) (rest : list bytes), clv pos -> clv rest -> clv (next_mode pos rest).
Proof. intros. unfold next_mode. cl_all. Qed.
#[export] Hint Resolve clv_next_mode : clv.
Lemma clv_user_modes : forall (n : nat) (client : handle) (origin : handle) (target : handle) (pos : bytes) (rest : list bytes) (set : bool) (the_modes : bytes) (hh : bool), clv pos -> clv rest -> clv the_modes -> clv (user_modes n client origin target pos rest set the_modes hh).
Proof. intros n client origin target pos rest set the_modes hh. revert client origin target pos rest set the_modes hh. induction n; intros; cl_invs; cbn [user_modes]; cl_all. Qed.
#[export] Hint Resolve clv_user_modes : clv.
Lemma clv_user_modes_reply : forall (client : handle) (origin : handle) (target : handle) (the_modes : bytes) (ok : bool) (hh : bool), clv the_modes -> clv (user_modes_reply client origin target the_modes ok hh).
Proof. intros. unfold user_modes_reply. cl_all. Qed.
#[export] Hint Resolve clv_user_modes_reply : clv.
Lemma clv_Client_Mode : forall (client : handle) (req : request) (origin : handle) (target : handle), clv req -> clv (Client_Mode client req origin target).
Proof. intros. unfold Client_Mode. cl_all. Qed.
#[export] Hint Resolve clv_Client_Mode : clv.
Lemma clv_Channel_Mode_Answer_Request : forall (origin : handle) (ch : chandle), clv (Channel_Mode_Answer_Request origin ch).
Proof. intros. unfold Channel_Mode_Answer_Request. cl_all. Qed.
#[export] Hint Resolve clv_Channel_Mode_Answer_Request : clv.
Lemma clv_Send_ListChange : forall (add : bool) (mode : ascii) (pref : handle) (client : handle) (ch : chandle) (mask : bytes), clv mode -> clv mask -> clv (Send_ListChange add mode pref client ch mask).
Proof. intros. unfold Send_ListChange. cl_all. Qed.
#[export] Hint Resolve clv_Send_ListChange : clv.
Lemma clv_list_of : forall (what : ascii) (c : channel), clv what -> clv c -> clv (list_of what c).
Proof. intros. unfold list_of. cl_all. Qed.
#[export] Hint Resolve clv_list_of : clv.
Lemma clv_Add_To_List : forall (what : ascii) (pref : handle) (client : handle) (ch : chandle) (pattern : bytes), clv what -> clv pattern -> clv (Add_To_List what pref client ch pattern).
Proof. intros. unfold Add_To_List. cl_all. Qed.
#[export] Hint Resolve clv_Add_To_List : clv.
Lemma clv_Del_From_List : forall (what : ascii) (pref : handle) (client : handle) (ch : chandle) (pattern : bytes), clv what -> clv pattern -> clv (Del_From_List what pref client ch pattern).
Proof. intros. unfold Del_From_List. cl_all. Qed.
#[export] Hint Resolve clv_Del_From_List : clv.
Lemma clv_cm_arg : forall (st : cmst) (i : Z), clv st -> clv (cm_arg st i).
Proof. intros. unfold cm_arg. cl_all. Qed.
#[export] Hint Resolve clv_cm_arg : clv.
Lemma clv_consume : forall (st : cmst), clv st -> clv (consume st).
Proof. intros. unfold consume. cl_all. Qed.
#[export] Hint Resolve clv_consume : clv.
Lemma clv_set_aarg : forall (a : Z) (st : cmst), clv st -> clv (set_aarg a st).
Proof. intros. unfold set_aarg. cl_all. Qed.
#[export] Hint Resolve clv_set_aarg : clv.
Lemma clv_inc_count : forall (st : cmst), clv st -> clv (inc_count st).
Proof. intros. unfold inc_count. cl_all. Qed.
#[export] Hint Resolve clv_inc_count : clv.
Lemma clv_set_action : forall (c : ascii) (st : cmst), clv c -> clv st -> clv (set_action c st).
Proof. intros. unfold set_action. cl_all. Qed.
#[export] Hint Resolve clv_set_action : clv.
Lemma clv_set_privs : forall (h : bool) (o : bool) (a : bool) (q : bool) (st : cmst), clv st -> clv (set_privs h o a q st).
Proof. intros. unfold set_privs. cl_all. Qed.
#[export] Hint Resolve clv_set_privs : clv.
Lemma clv_add_mode : forall (x : ascii) (st : cmst), clv x -> clv st -> clv (add_mode x st).
Proof. intros. unfold add_mode. cl_all. Qed.
#[export] Hint Resolve clv_add_mode : clv.
Lemma clv_add_arg : forall (a : bytes) (st : cmst), clv a -> clv st -> clv (add_arg a st).
Proof. intros. unfold add_arg. cl_all. Qed.
#[export] Hint Resolve clv_add_arg : clv.
Lemma clv_chan_advance : forall (st : cmst), clv st -> clv (chan_advance st).
Proof. intros. unfold chan_advance. cl_all. Qed.
#[export] Hint Resolve clv_chan_advance : clv.
Lemma clv_deny : forall (origin : handle) (ch : chandle) (msg : string), clv (B msg) -> clv (deny origin ch msg).
Proof. intros. unfold deny. cl_all. Qed.
#[export] Hint Resolve clv_deny : clv.
Lemma clv_deny_exit : forall (origin : handle) (ch : chandle) (msg : string), clv (B msg) -> clv (deny_exit origin ch msg).
Proof. intros. unfold deny_exit. cl_all. Qed.
#[export] Hint Resolve clv_deny_exit : clv.
Lemma clv_deny_next : forall (origin : handle) (ch : chandle) (msg : string) (st : cmst), clv (B msg) -> clv st -> clv (deny_next origin ch msg st).
Proof. intros. unfold deny_next. cl_all. Qed.
#[export] Hint Resolve clv_deny_next : clv.
Lemma clv_exit_unless_machine : forall (is_machine : bool) (m : M bool), clv m -> clv (exit_unless_machine is_machine m).
Proof. intros. unfold exit_unless_machine. cl_all. Qed.
#[export] Hint Resolve clv_exit_unless_machine : clv.
Lemma clv_letter_flag : forall (origin : handle) (ch : chandle) (is_oper : bool) (is_machine : bool) (st : cmst) (c : ascii), clv st -> clv c -> clv (letter_flag origin ch is_oper is_machine st c).
Proof. intros. unfold letter_flag. cl_all. Qed.
#[export] Hint Resolve clv_letter_flag : clv.
Lemma clv_letter_k : forall (client : handle) (origin : handle) (command : bytes) (ch : chandle) (is_oper : bool) (is_machine : bool) (st : cmst) (c : ascii), clv command -> clv st -> clv c -> clv (letter_k client origin command ch is_oper is_machine st c).
Proof. intros. unfold letter_k. cl_all. Qed.
#[export] Hint Resolve clv_letter_k : clv.
Lemma clv_letter_l : forall (client : handle) (origin : handle) (command : bytes) (ch : chandle) (is_oper : bool) (is_machine : bool) (st : cmst) (c : ascii), clv command -> clv st -> clv c -> clv (letter_l client origin command ch is_oper is_machine st c).
Proof. intros. unfold letter_l. cl_all. Qed.
#[export] Hint Resolve clv_letter_l : clv.
Lemma clv_letter_OP : forall (origin : handle) (ch : chandle) (is_oper : bool) (is_machine : bool) (st : cmst) (c : ascii), clv st -> clv c -> clv (letter_OP origin ch is_oper is_machine st c).
Proof. intros. unfold letter_OP. cl_all. Qed.
#[export] Hint Resolve clv_letter_OP : clv.
Lemma clv_letter_user : forall (origin : handle) (ch : chandle) (is_oper : bool) (is_machine : bool) (st : cmst) (c : ascii), clv st -> clv c -> clv (letter_user origin ch is_oper is_machine st c).
Proof. intros. unfold letter_user. cl_all. Qed.
#[export] Hint Resolve clv_letter_user : clv.
Lemma clv_letter_list : forall (client : handle) (origin : handle) (ch : chandle) (is_oper : bool) (is_machine : bool) (st : cmst) (c : ascii), clv st -> clv c -> clv (letter_list client origin ch is_oper is_machine st c).
Proof. intros. unfold letter_list. cl_all. Qed.
#[export] Hint Resolve clv_letter_list : clv.
Lemma clv_chan_letter : forall (client : handle) (origin : handle) (command : bytes) (ch : chandle) (is_oper : bool) (is_machine : bool) (st : cmst) (c : ascii), clv command -> clv st -> clv c -> clv (chan_letter client origin command ch is_oper is_machine st c).
Proof. intros. unfold chan_letter. cl_all. Qed.
#[export] Hint Resolve clv_chan_letter : clv.
Lemma clv_chan_apply : forall (origin : handle) (ch : chandle) (st : cmst) (x : ascii) (argadd : bytes) (target : option handle), clv st -> clv x -> clv argadd -> clv (chan_apply origin ch st x argadd target).
Proof. intros. unfold chan_apply. cl_all. Qed.
#[export] Hint Resolve clv_chan_apply : clv.
Lemma clv_chan_privs : forall (client : handle) (ch : chandle) (is_oper : bool) (is_machine : bool) (st : cmst), clv st -> clv (chan_privs client ch is_oper is_machine st).
Proof. intros. unfold chan_privs. cl_all. Qed.
#[export] Hint Resolve clv_chan_privs : clv.
Lemma clv_chan_modes : forall (client : handle) (origin : handle) (command : bytes) (ch : chandle) (is_oper : bool) (is_machine : bool) (n : nat) (st : cmst), clv command -> clv st -> clv (chan_modes client origin command ch is_oper is_machine n st).
Proof. intros client origin command ch is_oper is_machine n st. revert client origin command ch is_oper is_machine st. induction n; intros; cl_invs; cbn [chan_modes]; cl_all. Qed.
#[export] Hint Resolve clv_chan_modes : clv.
Lemma clv_chan_modes_reply : forall (client : handle) (origin : handle) (ch : chandle) (the_modes : bytes) (the_args : bytes) (ok : bool), clv the_modes -> clv the_args -> clv (chan_modes_reply client origin ch the_modes the_args ok).
Proof. intros. unfold chan_modes_reply. cl_all. Qed.
#[export] Hint Resolve clv_chan_modes_reply : clv.
Lemma clv_Channel_Mode : forall (client : handle) (req : request) (origin : handle) (ch : chandle), clv req -> clv (Channel_Mode client req origin ch).
Proof. intros. unfold Channel_Mode. cl_all. Qed.
#[export] Hint Resolve clv_Channel_Mode : clv.
Lemma clv_IRC_MODE : forall (client : handle) (req : request), clv req -> clv (IRC_MODE client req).
Proof. intros. unfold IRC_MODE. cl_all. Qed.
#[export] Hint Resolve clv_IRC_MODE : clv.
Lemma clv_IRC_AWAY : forall (client : handle) (req : request), clv req -> clv (IRC_AWAY client req).
Proof. intros. unfold IRC_AWAY. cl_all. Qed.
#[export] Hint Resolve clv_IRC_AWAY : clv.
