(** Proofs about the request parser (src/ngircd/parse.c). *)
From Coq Require Import List Ascii String ZArith Bool Lia Arith.
From Verif Require Import Bytes ParseReq ListsProofs.
Import ListNotations.

(** ---- specification: how a request is written on the wire (RFC 2812, 2.3.1) ---- *)

(** A middle parameter (also: command, prefix): non-empty, no blank, no leading colon. *)
Definition middle (s : bytes) : Prop :=
  s <> [] /\ ~ In SP s /\ hd0 s <> ":"%char.

Fixpoint render_params (middles : list bytes) (trailing : option bytes) : bytes :=
  match middles with
  | [] => match trailing with Some t => SP :: ":"%char :: t | None => [] end
  | m :: r => SP :: m ++ render_params r trailing
  end.

Definition render (prefix : option bytes) (cmd : bytes) (middles : list bytes) (trailing : option bytes) : bytes :=
  match prefix with Some p => ":"%char :: p ++ [SP] | None => [] end ++ cmd ++ render_params middles trailing.

Definition params (middles : list bytes) (trailing : option bytes) : list bytes :=
  middles ++ match trailing with Some t => [t] | None => [] end.

(** ---- proofs ---- *)
Lemma parse_args_bound : forall n s, List.length (parse_args n s) <= n.
Proof.
  induction n as [|n IH]; intro s; simpl; auto.
  destruct s as [|c r]; simpl; [lia|].
  destruct (Ascii.eqb c ":"); simpl; [lia|].
  destruct (cut (c :: r)) as [a [s'|]]; simpl; [|lia]. specialize (IH s'). lia.
Qed.

Lemma parse_line_max15 : forall l rq, parse_line l = Some rq -> List.length (rq_args rq) <= 15.
Proof.
  intros l rq H.
  assert (C : forall p s, List.length (rq_args (parse_command p s)) <= 15).
  { intros p s. unfold parse_command. destruct (cut s) as [c [r|]]; cbn [rq_args]; [apply parse_args_bound|simpl; lia]. }
  unfold parse_line in H. destruct l as [|c r].
  - inversion H; subst. apply C.
  - destruct (Ascii.eqb c ":").
    + destruct (cut (c :: r)) as [pre [rest|]]; inversion H; subst. apply C.
    + inversion H; subst. apply C.
Qed.

Lemma cut_noblank : forall s, ~ In SP s -> cut s = (s, None).
Proof. intros s H. unfold cut. rewrite strchr_none; auto. Qed.

Lemma cut_blank : forall a r, ~ In SP a -> hd0 r <> SP -> cut (a ++ SP :: r) = (a, Some r).
Proof.
  intros a r H H2. unfold cut. rewrite strchr_app by auto.
  cbn [drop_while]. rewrite Ascii.eqb_refl. destruct r as [|x r]; [reflexivity|]. cbn [drop_while].
  destruct (Ascii.eqb_spec SP x) as [E|E]; [|reflexivity]. subst. simpl in H2. congruence.
Qed.

Lemma drop_render_params : forall ms tr r, Forall middle ms -> render_params ms tr = SP :: r -> hd0 r <> SP.
Proof.
  intros [|m ms] tr r F H; simpl in H.
  - destruct tr; inversion H; subst. simpl. discriminate.
  - inversion H; subst. inversion F; subst. destruct H2 as [A [B2 C]]. destruct m; [congruence|].
    simpl. intro X. subst. apply B2. left. auto.
Qed.

Lemma render_params_shape : forall ms tr, render_params ms tr = [] \/ exists r, render_params ms tr = SP :: r.
Proof. intros [|m ms] tr; simpl; [destruct tr|]; eauto. Qed.

Lemma parse_args_render : forall ms tr n r, Forall middle ms ->
  List.length (params ms tr) <= n -> render_params ms tr = SP :: r -> parse_args n r = params ms tr.
Proof.
  induction ms as [|m ms IH]; intros tr n r F L H.
  - simpl in H. destruct tr as [t|]; inversion H; subst. unfold params in *. simpl in *.
    destruct n; [lia|]. cbn [parse_args]. reflexivity.
  - simpl in H. inversion H; subst; clear H. inversion F; subst. destruct H1 as [A [B2 C]].
    unfold params in *. simpl in L. destruct n as [|n]; [lia|].
    destruct m as [|c m]; [congruence|]. cbn [parse_args app].
    destruct (Ascii.eqb_spec c ":") as [E|E]; [simpl in C; congruence|].
    change (c :: m ++ render_params ms tr) with ((c :: m) ++ render_params ms tr).
    destruct (render_params_shape ms tr) as [E0|[r E0]].
    + rewrite E0, app_nil_r. rewrite cut_noblank by auto.
      destruct ms as [|m2 ms]; simpl in E0; [|discriminate]. destruct tr; [discriminate|]. reflexivity.
    + rewrite E0. rewrite cut_blank; auto; [|eapply drop_render_params; eauto].
      simpl. f_equal. apply IH; auto. lia.
Qed.

Lemma parse_command_render : forall p cmd ms tr, ~ In SP cmd -> Forall middle ms ->
  List.length (params ms tr) <= 15 ->
  parse_command p (cmd ++ render_params ms tr) = mkReq p cmd (params ms tr).
Proof.
  intros p cmd ms tr H F L. unfold parse_command.
  destruct (render_params_shape ms tr) as [E0|[r E0]]; rewrite E0.
  - rewrite app_nil_r, cut_noblank by auto.
    destruct ms as [|m2 ms]; simpl in E0; [|discriminate]. destruct tr; [discriminate|]. reflexivity.
  - rewrite cut_blank; auto; [|eapply drop_render_params; eauto].
    f_equal. apply parse_args_render; auto.
Qed.

Lemma parse_render : forall prefix cmd ms tr,
  (forall p, prefix = Some p -> ~ In SP p) -> middle cmd -> Forall middle ms ->
  List.length (params ms tr) <= 15 ->
  parse_line (render prefix cmd ms tr) = Some (mkReq prefix cmd (params ms tr)).
Proof.
  intros prefix cmd ms tr P [C1 [C2 C3]] F L. unfold render. destruct prefix as [p|].
  - cbn [app]. unfold parse_line. rewrite Ascii.eqb_refl.
    replace (":"%char :: (p ++ [SP]) ++ cmd ++ render_params ms tr)
      with ((":"%char :: p) ++ SP :: cmd ++ render_params ms tr) by (rewrite <- !app_assoc; reflexivity).
    rewrite cut_blank.
    + simpl tl. rewrite parse_command_render; auto.
    + intros [X|X]; [discriminate|]. eapply P; eauto.
    + destruct cmd as [|c cmd]; [congruence|]. simpl. intro X. subst. apply C2. left; auto.
  - cbn [app]. destruct cmd as [|c cmd]; [congruence|]. simpl in C3. unfold parse_line. cbn [app].
    destruct (Ascii.eqb_spec c ":"); [congruence|].
    change (c :: cmd ++ render_params ms tr) with ((c :: cmd) ++ render_params ms tr).
    rewrite parse_command_render; auto.
Qed.

(** All parameters but the last are free of blanks and do not start with a colon. *)
Lemma parse_args_middles : forall n s i a, nth_error (parse_args n s) i = Some a ->
  S i < List.length (parse_args n s) -> ~ In SP a /\ hd0 a <> ":"%char.
Proof.
  induction n as [|n IH]; intros s i a H L; [destruct i; discriminate|].
  cbn [parse_args] in *. destruct s as [|c r]; [simpl in L; lia|].
  destruct (Ascii.eqb_spec c ":") as [E|E]; [simpl in L; lia|].
  destruct (cut (c :: r)) as [x rest] eqn:Ec. unfold cut in Ec.
  pose proof (strchr_spec SP (c :: r)) as S.
  assert (X : ~ In SP x /\ hd0 x <> ":"%char).
  { destruct (strchr SP (c :: r)) as [[p f]|].
    - inversion Ec; subst. destruct S as [S1 [S2 [t S3]]]. split; auto.
      destruct x as [|y x]; simpl; [discriminate|]. simpl in S1. congruence.
    - inversion Ec; subst. split; auto. }
  destruct i as [|i]; cbn [nth_error] in H.
  - inversion H; subst; auto.
  - destruct rest as [s'|]; [|destruct i; discriminate]. simpl in L. eapply IH; eauto. lia.
Qed.

Lemma parse_line_middles : forall l rq i a, parse_line l = Some rq ->
  nth_error (rq_args rq) i = Some a -> S i < List.length (rq_args rq) -> ~ In SP a /\ hd0 a <> ":"%char.
Proof.
  intros l rq i a H.
  assert (C : forall p s, nth_error (rq_args (parse_command p s)) i = Some a ->
     S i < List.length (rq_args (parse_command p s)) -> ~ In SP a /\ hd0 a <> ":"%char).
  { intros p s. unfold parse_command. destruct (cut s) as [c [r|]]; cbn [rq_args].
    - apply parse_args_middles.
    - destruct i; discriminate. }
  unfold parse_line in H. destruct l as [|c r]; [inversion H; subst; apply C|].
  destruct (Ascii.eqb c ":").
  - destruct (cut (c :: r)) as [pre [rest|]]; inversion H; subst. apply C.
  - inversion H; subst. apply C.
Qed.

Lemma cut_cmd_noblank : forall s a b, cut s = (a, b) -> ~ In SP a.
Proof.
  intros s a b H. unfold cut in H. pose proof (strchr_spec SP s) as S.
  destruct (strchr SP s) as [[p f]|]; inversion H; subst; tauto.
Qed.

(** ---- CTCP filter ---- *)

Definition starts_with (p s : bytes) : Prop := exists r, s = p ++ r.

Lemma neq_prefix_starts : forall p s, neq_prefix (List.length p) s p = true <-> starts_with p s.
Proof.
  intros p s. unfold neq_prefix, starts_with. rewrite beq_eq. rewrite firstn_all. split.
  - intro H. exists (skipn (List.length p) s). rewrite <- H at 1. symmetry. apply firstn_skipn.
  - intros [r H]. subst. rewrite firstn_app, Nat.sub_diag, firstn_all. simpl. apply app_nil_r.
Qed.

Lemma drop_while_colon : forall pre t, ~ In ":"%char pre ->
  drop_while (fun c => negb (Ascii.eqb c ":")) (pre ++ ":"%char :: t) = ":"%char :: t.
Proof.
  induction pre as [|x pre IH]; intros t H; simpl; auto.
  destruct (Ascii.eqb_spec x ":") as [E|E]; simpl.
  - exfalso. apply H. left. auto.
  - apply IH. intro X. apply H. right. auto.
Qed.

Lemma ScrubCTCP_exact : forall head text, ~ In ":"%char head -> 
  (ScrubCTCP (head ++ ":"%char :: text) = true /\ head <> [] <->
   head <> [] /\ starts_with [SOH] text /\ ~ starts_with (SOH :: B "ACTION ") text).
Proof.
  intros head text H. unfold ScrubCTCP.
  destruct head as [|c head]; [split; intros [? ?]; tauto|].
  cbn [app]. destruct (Ascii.eqb_spec c ":") as [E|E]; [exfalso; apply H; left; auto|].
  change (c :: head ++ ":"%char :: text) with ((c :: head) ++ ":"%char :: text).
  rewrite drop_while_colon by auto.
  assert (K : (match text with
               | c0 :: r => if Ascii.eqb c0 SOH then negb (neq_prefix 7 r (B "ACTION ")) else false
               | [] => false end = true) <->
              starts_with [SOH] text /\ ~ starts_with (SOH :: B "ACTION ") text).
  { destruct text as [|x text].
    - split; [discriminate|]. intros [[r Hr] _]. discriminate.
    - destruct (Ascii.eqb_spec x SOH) as [Ex|Ex].
      + subst. rewrite negb_true_iff. pose proof (neq_prefix_starts (B "ACTION ") text) as Q.
        change (List.length (B "ACTION ")) with 7 in Q. split.
        * intro Hn. split; [exists text; reflexivity|]. intros [r Hr]. inversion Hr; subst.
          assert (neq_prefix 7 (B "ACTION " ++ r) (B "ACTION ") = true) by (apply Q; exists r; reflexivity). 
          cbn [app B list_ascii_of_string] in *. congruence.
        * intros [_ Hn]. destruct (neq_prefix 7 text (B "ACTION ")) eqn:En; auto.
          exfalso. apply Hn. destruct (proj1 Q eq_refl) as [r Hr]. exists r. subst. reflexivity.
      + split; [discriminate|]. intros [[r Hr] _]. inversion Hr; subst. congruence. }
  cbn [app]. rewrite <- K. destruct text; intuition congruence.
Qed.
