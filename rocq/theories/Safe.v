(** C40: no line makes the server read outside of a string, with four exceptions. *)
From Coq Require Import List Ascii String ZArith NArith Bool Lia Arith.
From Verif Require Import Bytes Strl Match Lists Hash ParseReq State Messages Monad Core Write Info Chan Mode Msg Login Oper Server Dispatch Safe0 Safe1 Safe2 Safe3.
Import ListNotations.
Local Open Scope m_scope.

Lemma safe_nick_introduce : forall h req, (List.length (rq_args req) = 7 -> nth_error (rq_args req) 5 <> Some []) -> safe (nick_introduce h req).
Proof.
  intros h req H. unfold nick_introduce. destruct (negb (argc req =? 2)%nat && negb (argc req =? 7)%nat); [sf|]. cbv zeta.
  assert (Q : (argc req =? 7)%nat = true -> arg req 5 <> []).
  { intros E E0. apply Nat.eqb_eq in E. apply (H E). unfold argc, arg in *. destruct (nth_error (rq_args req) 5) as [a|] eqn:E5; [|apply nth_error_None in E5; lia].
    rewrite (nth_error_nth _ _ _ E5) in E0. subst a. reflexivity. }
  destruct (argc req =? 7)%nat; [|sf]. specialize (Q eq_refl). destruct (arg req 5) as [|x m]; [contradiction Q; reflexivity|]. sf.
Qed.
Lemma safe_IRC_NICK : forall h req, (List.length (rq_args req) = 7 -> nth_error (rq_args req) 5 <> Some []) -> safe (IRC_NICK h req).
Proof. intros h req H. unfold IRC_NICK. pose proof (fun h => safe_nick_introduce h req H). sf. Qed.

(** The requests that are not covered. *)
Definition is_cmd (n : string) (req : request) : Prop := caseeq (rq_command req) (B n) = true.
Record harmless (req : request) : Prop := {
  hl_mode : is_cmd "MODE" req -> Forall full (skipn 2 (rq_args req));
  hl_nick : List.length (rq_args req) = 7 -> nth_error (rq_args req) 5 <> Some [];
  hl_ison : ~ is_cmd "ISON" req;
  hl_userhost : ~ is_cmd "USERHOST" req
}.
Lemma safe_table : forall req, harmless req ->
  Forall (fun cmd => is_cmd (cm_name cmd) req -> forall h, safe (cm_fun cmd h req)) My_Commands.
Proof.
  intros req H. unfold My_Commands.
  repeat (apply Forall_cons; [cbn [cm_name cm_fun]; intros Hn h;
    first [ solve [sf]
          | apply safe_IRC_MODE; exact (hl_mode req H Hn)
          | apply safe_IRC_NICK; exact (hl_nick req H)
          | exfalso; exact (hl_ison req H Hn)
          | exfalso; exact (hl_userhost req H Hn) ] |]).
  apply Forall_nil.
Qed.
Lemma safe_Handle_Request : forall i req, harmless req -> safe (Handle_Request i req).
Proof.
  intros i req H. unfold Handle_Request. apply safe_bind; [sf|]. intro o. apply safe_bind; [sf|]. intro h. apply safe_bind; [sf|]. intro t.
  destruct (_ && _); [sf|]. destruct (find _ _) as [cmd|] eqn:E; [|sf].
  apply find_some in E. destruct E as [I E]. pose proof (safe_table req H) as Q. rewrite Forall_forall in Q. specialize (Q cmd I E).
  unfold run_command. sf.
Qed.
Lemma safe_Parse_Request : forall i line, (forall req, parse_line (trim line) = Some req -> harmless req) -> safe (Parse_Request i line).
Proof.
  intros i line H. unfold Parse_Request. cbv zeta. apply safe_bind; [sf|]. intro scrub. destruct (scrub && _); [sf|].
  destruct (parse_line (trim line)) as [req|]; [|sf]. specialize (H req eq_refl).
  apply (safe_bind_post _ _ (fun v => match v with inl _ => True | inr r => harmless r end)).
  - sf.
  - unfold Validate_Prefix. pst; try exact I; try exact H. destruct H as [H1 H2 H3 H4]. constructor; assumption.
  - intros [b|r] Hr; [sf|]. apply safe_Handle_Request. exact Hr.
Qed.

(** No parameter but the last one is empty. *)
Lemma drop_hd : forall s, hd0 (drop_while (Ascii.eqb SP) s) <> SP.
Proof.
  induction s as [|c s IH]; [vm_compute; discriminate|]. cbn [drop_while]. destruct (Ascii.eqb SP c) eqn:E; [exact IH|]. cbn [hd0]. intro K. subst c. rewrite Ascii.eqb_refl in E. discriminate.
Qed.
Lemma parse_args_full : forall n s i a, hd0 s <> SP -> nth_error (parse_args n s) i = Some a -> S i < List.length (parse_args n s) -> a <> [].
Proof.
  induction n as [|n IH]; intros s i a Hs H L; [destruct i; discriminate|].
  cbn [parse_args] in *. destruct s as [|c r]; [simpl in L; lia|]. cbn [hd0] in Hs.
  destruct (Ascii.eqb c ":"); [simpl in L; lia|].
  unfold cut in *. cbn [strchr] in *. destruct (Ascii.eqb c SP) eqn:E; [apply Ascii.eqb_eq in E; contradiction|].
  destruct (strchr SP r) as [[x f]|].
  - destruct i as [|i]; cbn [nth_error] in H; [inversion H; discriminate|]. simpl in L. apply (IH _ i a (drop_hd f) H). lia.
  - destruct i as [|i]; cbn [nth_error] in H; [inversion H; discriminate|]. destruct i; discriminate.
Qed.
Lemma parse_line_full : forall l rq i a, parse_line l = Some rq -> nth_error (rq_args rq) i = Some a -> S i < List.length (rq_args rq) -> a <> [].
Proof.
  intros l rq i a H.
  assert (C : forall p s, nth_error (rq_args (parse_command p s)) i = Some a -> S i < List.length (rq_args (parse_command p s)) -> a <> []).
  { intros p s. unfold parse_command, cut. destruct (strchr SP s) as [[c r]|]; cbn [rq_args]; [apply parse_args_full; apply drop_hd|destruct i; discriminate]. }
  unfold parse_line in H. destruct l as [|c r]; [inversion H; subst; apply C|]. destruct (Ascii.eqb c ":").
  - destruct (cut (c :: r)) as [pre [rest|]]; inversion H; subst. apply C.
  - inversion H; subst. apply C.
Qed.

(** ** For the theorems *)
From Verif Require Import Spec Observ.
Lemma mode_reads_parameters : forall s i line req, parse_line (trim line) = Some req -> same_name (rq_command req) (B "MODE") ->
  (forall a, In a (skipn 2 (rq_args req)) -> a <> []) -> Parse_Request i line s <> Bad W_OverRead.
Proof.
  intros s i line req E N H. apply safe_Parse_Request. intros r Er. rewrite E in Er. inversion Er; subst r. apply same_name_iff in N.
  assert (X : forall n, is_cmd n req -> caseeq (B "MODE") (B n) = true).
  { intros n Hn. apply same_name_iff. apply same_name_iff in N. apply same_name_iff in Hn. unfold same_name in *. congruence. }
  constructor.
  - intros _. apply Forall_forall. exact H.
  - intros L K. exact (parse_line_full _ _ _ _ E K ltac:(lia) eq_refl).
  - intro K. apply X in K. vm_compute in K. discriminate K.
  - intro K. apply X in K. vm_compute in K. discriminate K.
Qed.
Lemma others_read_parameters : forall s i line,
  (forall req, parse_line (trim line) = Some req ->
     forall n, In n ["MODE"; "ISON"; "USERHOST"]%string -> ~ same_name (rq_command req) (B n)) ->
  Parse_Request i line s <> Bad W_OverRead.
Proof.
  intros s i line H. apply safe_Parse_Request. intros r Er. pose proof (H r Er) as H1.
  assert (X : forall n, In n ["MODE"; "ISON"; "USERHOST"]%string -> ~ is_cmd n r).
  { intros n I K. apply (H1 n I). apply same_name_iff. exact K. }
  constructor.
  - intro K. destruct (X "MODE"%string); [left; reflexivity|exact K].
  - intros L K. exact (parse_line_full _ _ _ _ Er K ltac:(lia) eq_refl).
  - apply X. right. left. reflexivity.
  - apply X. right. right. left. reflexivity.
Qed.
