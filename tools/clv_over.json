{
 "Core": {
  "cut0": "skip",
  "marg": "skip",
  "wire": "skip",
  "emit": {
   "raw": "Lemma wire_legal : forall t : bytes, clv t -> legal_line (wire t).\nProof.\n  intros t H. apply clv_cut0 in H. unfold wire.\n  assert (N : ~ In NUL (cut0 t)) by (clear H; induction t as [|c t IH]; [intros []|]; cbn [cut0]; destruct (Ascii.eqb c NUL) eqn:E; [intros []|]; intros [X|X]; [subst c; discriminate|auto]).\n  assert (K : forall x : bytes, clv x -> ~ In CR x /\\ ~ In LF x) by (intros x Hx; unfold clv, Cl_bytes, Cl_list in Hx; rewrite Forall_forall in Hx; split; intro X; apply Hx in X; destruct X; congruence).\n  eexists. split; [reflexivity|]. destruct (511 <=? List.length (cut0 t)) eqn:L.\n  - assert (Q : clv (firstn 505 (cut0 t) ++ B \"[CUT]\")) by (apply (clv_app ascii Cl_ascii); [apply (clv_firstn ascii Cl_ascii); exact H|apply okb_clv; reflexivity]).\n    destruct (K _ Q). split; [|split; [assumption|split; [assumption|]]].\n    + rewrite app_length, firstn_length. simpl (List.length (B _)). lia.\n    + intro X. apply in_app_or in X. destruct X as [X|X]; [apply N; revert X; clear; generalize 505; induction (cut0 t); intros [|n] X; simpl in *; try contradiction; destruct X; eauto|]. simpl in X. decompose [or] X; try contradiction; discriminate.\n  - apply Nat.leb_gt in L. destruct (K _ H). repeat split; auto; lia.\nQed.\nLemma clv_emit : forall i l, legal_line l -> clv (emit i l).\nProof.\n  intros i l H. unfold emit. cl_bind; [|cl_auto]. apply clv_modify. intros s S. apply clv_set_s_out; [constructor; [exact H|apply S]|]. cl_auto.\nQed.\n#[export] Hint Resolve wire_legal clv_emit : clv."
  },
  "odd": "intros. unfold odd. cl_auto.",
  "new_client": "constructor; cbn; repeat constructor.",
  "new_cserver": "constructor; cbn; repeat constructor.",
  "opt": {
   "raw": "Lemma clv_opt : forall A (C : Cl A) (o : option A) f, clv o -> (forall a, clv a -> clv (f a)) -> clv (opt o f).\nProof. intros A C [a|] f H Hf; [apply Hf; exact H|apply clv_ret; exact I]. Qed.\n#[export] Hint Extern 0 (@clv _ _ (opt _ _)) => (match goal with |- @clv _ _ (@opt ?A ?o ?f) => let C := inst A in apply (clv_opt A C o f); [|cl_intro; cbv beta] end) : clv."
  }
 },
 "Write": {
  "Channel_CheckKey": "intros. unfold Channel_CheckKey. cl_bind; [cl_auto|]. destruct (negb _); [cl_auto|]. destruct (beq key []); [cl_auto|]. destruct (beq (ch_key x) key); [cl_auto|]. destruct (ch_keyfile x); [cl_auto|]. apply (clv_bind _ _ Cl_default); [|intros; cl_auto]. intros s0 b0 s' S E. injection E as <- <-. split; [exact S|exact I]."
 },
 "Info": {
  "void": {
   "raw": "Lemma clv_void : forall A (C : Cl A) (m : M A), clv m -> clv (void m).\nProof. intros. unfold void. eapply clv_bind; [eassumption|]. intros. apply clv_ret. exact I. Qed.\n#[export] Hint Extern 0 (@clv _ _ (void _)) => (match goal with |- @clv _ _ (@void ?A ?m) => let C := inst A in apply (clv_void A C m) end) : clv."
  },
  "mall": {
   "raw": "Lemma clv_mall : forall A (C : Cl A) (l : list A) f, clv l -> (forall a, clv a -> clv (f a)) -> clv (mall l f).\nProof.\n  intros A C l f Hl Hf. induction l as [|a l IH]; cbn [mall]; [apply clv_ret; exact I|].\n  apply clv_inv in Hl. eapply clv_bind; [apply Hf; tauto|]. intros b _. destruct b; [apply IH; tauto|apply clv_ret; exact I].\nQed.\n#[export] Hint Extern 0 (@clv _ _ (mall _ _)) => (match goal with |- @clv _ _ (@mall ?A ?l ?f) => let C := inst A in apply (clv_mall A C l f); [|cl_intro; cbv beta] end) : clv."
  },
  "class_list": "intros []; unfold class_list; cl_auto.",
  "set_class": "intros []; unfold set_class; cl_auto."
 },
 "Mode": {
  "_pre": "Record clean_cmst (r : cmst) : Prop := mk_clean_cmst { k_cm_args : clv (cm_args r); k_cm_pos : clv (cm_pos r); k_cm_modes : clv (cm_modes r); k_cm_astr : clv (cm_astr r) }.\n#[export] Instance Cl_cmst : Cl cmst := clean_cmst.\n#[export] Instance Cl_verdict : Cl verdict := fun v => match v with V_Exit _ => True | V_Next _ st x a _ => clv st /\\ clv x /\\ clv a end.\nLemma clv_mkCm : forall a p m aa se sk mo ast c h o ad q, clv a -> clv p -> clv mo -> clv ast -> clv (mkCm a p m aa se sk mo ast c h o ad q).\nProof. intros; constructor; assumption. Qed.\nLemma clv_cm_args : forall r, clv r -> clv (cm_args r). Proof. intros r H. apply H. Qed.\nLemma clv_cm_pos : forall r, clv r -> clv (cm_pos r). Proof. intros r H. apply H. Qed.\nLemma clv_cm_modes : forall r, clv r -> clv (cm_modes r). Proof. intros r H. apply H. Qed.\nLemma clv_cm_astr : forall r, clv r -> clv (cm_astr r). Proof. intros r H. apply H. Qed.\nLemma clv_V_Exit : forall b, clv (V_Exit b). Proof. intros; exact I. Qed.\nLemma clv_V_Next : forall b st x a t, clv st -> clv x -> clv a -> clv (V_Next b st x a t). Proof. intros; split; [assumption|split; assumption]. Qed.\n#[export] Hint Resolve clv_mkCm clv_cm_args clv_cm_pos clv_cm_modes clv_cm_astr clv_V_Exit clv_V_Next : clv.\nLemma clv_V_inv : forall b st x a t, clv (V_Next b st x a t) -> clv st /\\ clv x /\\ clv a. Proof. intros b st x a t H. exact H. Qed.\nLtac inv_more H ::= lazymatch type of H with\n  | @clv _ _ (V_Next _ _ _ _ _) => let H1 := fresh \"Hc\" in let H2 := fresh \"Hc\" in let H3 := fresh \"Hc\" in apply clv_V_inv in H; destruct H as (H1 & H2 & H3)\n  | _ => idtac end.\n"
 },
 "Msg": {
  "_pre": "Record clean_mtarget (r : mtarget) : Prop := mk_clean_mtarget { k_mt_nick : clv (mt_nick r); k_mt_user : clv (mt_user r); k_mt_host : clv (mt_host r); k_mt_server : clv (mt_server r) }.\n#[export] Instance Cl_mtarget : Cl mtarget := clean_mtarget.\nLemma clv_mkMt : forall n u h s, clv n -> clv u -> clv h -> clv s -> clv (mkMt n u h s). Proof. intros; constructor; assumption. Qed.\nLemma clv_mt_nick : forall r, clv r -> clv (mt_nick r). Proof. intros r H. apply H. Qed.\nLemma clv_mt_user : forall r, clv r -> clv (mt_user r). Proof. intros r H. apply H. Qed.\nLemma clv_mt_host : forall r, clv r -> clv (mt_host r). Proof. intros r H. apply H. Qed.\nLemma clv_mt_server : forall r, clv r -> clv (mt_server r). Proof. intros r H. apply H. Qed.\n#[export] Hint Resolve clv_mkMt clv_mt_nick clv_mt_user clv_mt_host clv_mt_server : clv.\n",
  "send_loop": "intros client from forcetype errors command message seen targets. revert command seen. induction targets; intros; cl_invs; cbn [send_loop]; cl_all.",
  "help_lines": "intros client topic l in_article n. revert in_article n. induction l; intros; cl_invs; cbn [help_lines]; cl_all."
 },
 "Dispatch": {
  "_pre": "#[export] Instance Cl_command : Cl command := fun c => forall h req, clv req -> clv (cm_fun c h req).\nLemma clv_cm_fun : forall c h req, clv c -> clv req -> clv (cm_fun c h req). Proof. intros c h req H. apply H. Qed.\nLemma clv_mkCommand : forall n f t mi ma p, (forall h req, clv req -> clv (f h req)) -> clv (mkCommand n f t mi ma p).\nProof. intros n f t mi ma p H. exact H. Qed.\n#[export] Hint Resolve clv_cm_fun : clv.\n",
  "My_Commands": "unfold My_Commands. repeat (apply clv_cons; [apply clv_mkCommand; intros; cl_all|]). apply clv_nil.",
  "numeric_args": "intros l. induction l as [|a l IH]; intros str Hl Hs; cl_invs; cbn [numeric_args]; [cl_all|]. destruct l; [cl_all|]. apply IH; cl_all.",
  "US": "skip",
  "US_U": "skip",
  "US_S": "skip",
  "US_NEW": "skip",
  "US_ANY": "skip"
 },
 "Conn": {
  "_pre": "#[export] Instance Cl_event : Cl event := fun e => match e with E_Accept _ ip _ => clv ip | E_Resolved _ h => clv h | E_NewServer _ _ ip => clv ip | _ => True end.\nLemma no_eol_clv : forall b, no_eol b -> clv b.\nProof.\n  intros b H. apply okb_clv. unfold no_eol in H. rewrite forallb_forall in *. intros c Hc. specialize (H c Hc). unfold eol in H. unfold okc.\n  destruct (Ascii.eqb c CR); [discriminate|]. exact H.\nQed.\n",
  "Simple_Message": {
   "raw": "Definition msg_ok (m : string) : bool := forallb (fun c => okc c && negb (Ascii.eqb c NUL)) (B m) && (List.length (B m) <=? 510).\nLemma clv_Simple_Message : forall i msg, msg_ok msg = true -> clv (Simple_Message i msg).\nProof.\n  intros i msg H. unfold Simple_Message. apply clv_modify. intros s S. apply clv_set_s_out; [|exact S]. constructor; [|apply S].\n  apply andb_true_iff in H. destruct H as [H L]. apply Nat.leb_le in L. cbn [snd]. rewrite firstn_all2 by lia. exists (B msg). rewrite forallb_forall in H.\n  repeat split; auto; intro X; apply H in X; discriminate.\nQed.\n#[export] Hint Extern 0 (@clv _ _ (Simple_Message _ _)) => (apply clv_Simple_Message; reflexivity) : clv."
  },
  "find_eol": "skip",
  "handle_lines": "induction n; intros; cbn [handle_lines]; [cl_all|]. cl_bind; [cl_all|]. cl_bind; [cl_all|]. destruct (x0 <? co_delaytime x)%Z; [cl_all|].\n  destruct (co_rbuf x) eqn:R; [cl_all|]. rewrite <- R. clear R. destruct (find_eol (co_rbuf x)) as [[p dl]|] eqn:E; [|cl_all].\n  assert (K : clv (firstn p (co_rbuf x))). { apply no_eol_clv. apply find_eol_some in E. destruct E as (l1 & t1 & r1 & E1 & E2 & _ & E4 & _). rewrite E1. subst p. rewrite firstn_app, Nat.sub_diag, firstn_all. cbn [firstn]. rewrite app_nil_r. exact E4. }\n  cbv zeta. cl_all.",
  "Read_Data": {
   "raw": "Lemma clv_Read_Data : forall i data, clv (Read_Data i data).\nProof. intros. unfold Read_Data. cl_bind; [cl_all|]. cl_bind; [cl_all|]. destruct (_ <=? _); [cl_all|]. destruct data; [cl_all|]. cl_all. Qed.\n#[export] Hint Resolve clv_Read_Data : clv."
  },
  "step": "intros e He. destruct e; cbn [step]; try (change (clv ip) in He); try (change (clv host) in He); cl_all.",
  "conf_ok": "skip",
  "boot": "skip",
  "init_state": "skip"
 }
}