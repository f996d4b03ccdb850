(** C08: rules for clean values (Clean0.v) of the monad and of string functions. *)
From Coq Require Import List Ascii String ZArith NArith Bool Lia Arith.
From Coq Require Import DecimalString.
From Verif Require Import Bytes Strl Match Lists Hash ParseReq State Messages Monad Core Clean0 CleanRec.
Import ListNotations.
Local Open Scope m_scope.

#[export] Instance Cl_M {A} {C : Cl A} : Cl (M A) | 0 :=
  fun m => forall s a s', clv s -> m s = Ok a s' -> clv s' /\ C a.
#[export] Instance Cl_marg : Cl marg | 0 := @Cl_M farg Cl_farg.
#[global] Typeclasses Opaque M marg bytes mlist.

(** ---- the monad ---- *)
Lemma clv_ret : forall A (C : Cl A) (a : A), clv a -> clv (ret a).
Proof. intros A C a H s x s' S E. injection E as <- <-. auto. Qed.
Lemma clv_bind : forall A B (C : Cl A) (D : Cl B) (m : M A) (k : A -> M B),
  clv m -> (forall a, clv a -> clv (k a)) -> clv (bind m k).
Proof.
  intros A B C D m k Hm Hk s b s' S E. unfold bind in E. destruct (m s) as [a s1|] eqn:E1; [|discriminate].
  destruct (Hm s a s1 S E1) as [S1 Ha]. exact (Hk a Ha s1 b s' S1 E).
Qed.
Lemma clv_bad : forall A (C : Cl A) w, clv (@bad A w).
Proof. intros A C w s a s' S E. discriminate. Qed.
Lemma clv_gets : forall A (C : Cl A) (f : state -> A), (forall s, clv s -> clv (f s)) -> clv (gets f).
Proof. intros A C f H s a s' S E. injection E as <- <-. split; [exact S|exact (H _ S)]. Qed.
Lemma clv_modify : forall f, (forall s, clv s -> clv (f s)) -> clv (modify f).
Proof. intros f H s a s' S E. injection E as <- <-. split; [auto|exact I]. Qed.
Lemma clv_cf : forall A (C : Cl A) (f : conf -> A), (forall c, clv c -> clv (f c)) -> clv (cf f).
Proof. intros. unfold cf. apply clv_gets. intros s S. apply H. apply S. Qed.
Lemma clv_assertM : forall b, clv (assertM b).
Proof. intros []; [apply clv_ret; exact I|apply clv_bad]. Qed.
Lemma clv_nonnull : forall A (C : Cl A) (o : option A), clv o -> clv (nonnull o).
Proof. intros A C [a|] H; [apply clv_ret; exact H|apply clv_bad]. Qed.
Lemma clv_whenM : forall b m, clv m -> clv (whenM b m).
Proof. intros [] m H; [exact H|apply clv_ret; exact I]. Qed.
Lemma clv_andM : forall a b : M bool, clv a -> clv b -> clv (andM a b).
Proof. intros. eapply clv_bind; auto. intros [] _; auto. apply clv_ret; exact I. Qed.
Lemma clv_orM : forall a b : M bool, clv a -> clv b -> clv (orM a b).
Proof. intros. eapply clv_bind; auto. intros [] _; auto. apply clv_ret; exact I. Qed.
Lemma clv_notM : forall a : M bool, clv a -> clv (notM a).
Proof. intros. eapply clv_bind; auto. intros b _. apply clv_ret; exact I. Qed.
Lemma clv_nil : forall A (C : Cl A), clv (@nil A).
Proof. intros. constructor. Qed.
Lemma clv_cons : forall A (C : Cl A) (a : A) l, clv a -> clv l -> clv (a :: l).
Proof. intros. constructor; auto. Qed.
Lemma clv_inv : forall A (C : Cl A) (a : A) l, clv (a :: l) -> clv a /\ clv l.
Proof. intros A C a l H. inversion H; auto. Qed.
Lemma clv_mfor : forall A (C : Cl A) (l : list A) f, clv l -> (forall a, clv a -> clv (f a)) -> clv (mfor l f).
Proof.
  intros A C l f Hl Hf. induction l as [|a l IH]; cbn [mfor]; [apply clv_ret; exact I|].
  apply clv_inv in Hl. eapply clv_bind; [apply Hf; tauto|]. intros _ _. apply IH. tauto.
Qed.
Lemma clv_mfold : forall A B (C : Cl A) (D : Cl B) (f : B -> A -> M B) l b, clv l -> clv b ->
  (forall b a, clv b -> clv a -> clv (f b a)) -> clv (mfold f l b).
Proof.
  intros A B C D f l. induction l as [|a l IH]; intros b Hl Hb Hf; cbn [mfold]; [apply clv_ret; auto|].
  apply clv_inv in Hl. eapply clv_bind; [apply Hf; tauto|]. intros b' Hb'. apply IH; tauto.
Qed.
Lemma clv_mloop : forall A R (C : Cl A) (D : Cl R) (f : A -> M (option R)) l, clv l -> (forall a, clv a -> clv (f a)) -> clv (mloop l f).
Proof.
  intros A R C D f l Hl Hf. induction l as [|a l IH]; cbn [mloop]; [apply clv_ret; exact I|].
  apply clv_inv in Hl. eapply clv_bind; [apply Hf; tauto|]. intros [r|] Hr; [apply clv_ret; exact Hr|]. apply IH. tauto.
Qed.
Lemma clv_mfind : forall A (C : Cl A) (f : A -> M bool) l, clv l -> (forall a, clv a -> clv (f a)) -> clv (mfind f l).
Proof.
  intros A C f l Hl Hf. induction l as [|a l IH]; cbn [mfind]; [apply clv_ret; exact I|].
  apply clv_inv in Hl. eapply clv_bind; [apply Hf; tauto|]. intros [] _; [apply clv_ret; tauto|]. apply IH. tauto.
Qed.
Lemma clv_mcount : forall A (C : Cl A) (f : A -> M bool) l, clv l -> (forall a, clv a -> clv (f a)) -> clv (mcount f l).
Proof.
  intros A C f l Hl Hf. induction l as [|a l IH]; cbn [mcount]; [apply clv_ret; exact I|].
  apply clv_inv in Hl. eapply clv_bind; [apply Hf; tauto|]. intros b _. eapply clv_bind; [apply IH; tauto|]. intros n _. apply clv_ret; exact I.
Qed.
Lemma clv_mseq : forall A (C : Cl A) (l : list (M A)), clv l -> clv (mseq l).
Proof.
  intros A C l Hl. induction l as [|a l IH]; cbn [mseq]; [apply clv_ret; constructor|].
  apply clv_inv in Hl. eapply clv_bind; [tauto|]. intros x Hx. eapply clv_bind; [apply IH; tauto|]. intros t Ht. apply clv_ret. constructor; auto.
Qed.

(** ---- data ---- *)
Lemma clv_app : forall A (C : Cl A) (a b : list A), clv a -> clv b -> clv (a ++ b).
Proof. intros. apply Forall_app; auto. Qed.
Lemma clv_map : forall A B (C : Cl A) (D : Cl B) (f : A -> B) l, clv l -> (forall a, clv a -> clv (f a)) -> clv (map f l).
Proof. intros A B C D f l Hl Hf. induction l; simpl; constructor; apply clv_inv in Hl; [apply Hf|apply IHl]; tauto. Qed.
Lemma clv_filter : forall A (C : Cl A) (f : A -> bool) l, clv l -> clv (filter f l).
Proof. intros A C f l Hl. induction l; simpl; [constructor|]. apply clv_inv in Hl. destruct (f a); [constructor|]; try apply IHl; tauto. Qed.
Lemma clv_firstn : forall A (C : Cl A) n (l : list A), clv l -> clv (firstn n l).
Proof. intros A C n. induction n; intros [|a l] H; simpl; try constructor; apply clv_inv in H; [tauto|apply IHn; tauto]. Qed.
Lemma clv_skipn : forall A (C : Cl A) n (l : list A), clv l -> clv (skipn n l).
Proof. intros A C n. induction n; intros [|a l] H; simpl; auto. apply clv_inv in H. apply IHn; tauto. Qed.
Lemma clv_rev : forall A (C : Cl A) (l : list A), clv l -> clv (rev l).
Proof. intros A C l H. apply Forall_rev. exact H. Qed.
Lemma clv_find : forall A (C : Cl A) f (l : list A), clv l -> clv (find f l).
Proof. intros A C f l H. destruct (find f l) eqn:E; [|exact I]. apply find_some in E. change (C a). eapply Forall_forall in H; [exact H|tauto]. Qed.
Lemma clv_nth_error : forall A (C : Cl A) (l : list A) n, clv l -> clv (nth_error l n).
Proof. intros A C l n H. destruct (nth_error l n) eqn:E; [|exact I]. apply nth_error_In in E. change (C a). eapply Forall_forall in H; eauto. Qed.
Lemma clv_nth : forall A (C : Cl A) n (l : list A) d, clv l -> clv d -> clv (nth n l d).
Proof. intros A C n. induction n; intros [|a l] d H Hd; simpl; auto; apply clv_inv in H; [tauto|apply IHn; tauto]. Qed.
Lemma clv_hd : forall A (C : Cl A) (l : list A) d, clv l -> clv d -> clv (hd d l).
Proof. intros A C [|a l] d H Hd; simpl; auto; apply clv_inv in H; tauto. Qed.
Lemma clv_tl : forall A (C : Cl A) (l : list A), clv l -> clv (tl l).
Proof. intros A C [|a l] H; simpl; auto; apply clv_inv in H; tauto. Qed.
Lemma clv_concat : forall A (C : Cl A) (l : list (list A)), clv l -> clv (List.concat l).
Proof. intros A C l H. induction l; simpl; [constructor|]. apply clv_inv in H. apply clv_app; tauto. Qed.
Lemma clv_flat_map : forall A B (C : Cl A) (D : Cl B) (f : A -> list B) l, clv l -> (forall a, clv a -> clv (f a)) -> clv (flat_map f l).
Proof. intros A B C D f l Hl Hf. induction l; simpl; [constructor|]. apply clv_inv in Hl. apply clv_app; [apply Hf|apply IHl]; tauto. Qed.
Lemma clv_combine : forall A B (C : Cl A) (D : Cl B) (l : list A) (k : list B), clv l -> clv k -> clv (combine l k).
Proof. intros A B C D l. induction l; intros [|b k] H K; simpl; try constructor; apply clv_inv in H; apply clv_inv in K; [split; tauto|apply IHl; tauto]. Qed.
Lemma clv_Some : forall A (C : Cl A) (a : A), clv a -> clv (Some a).
Proof. auto. Qed.
Lemma clv_None : forall A (C : Cl A), clv (@None A).
Proof. intros; exact I. Qed.
Lemma clv_pair : forall A B (C : Cl A) (D : Cl B) (a : A) (b : B), clv a -> clv b -> clv (a, b).
Proof. intros; split; auto. Qed.
Lemma clv_fst : forall A B (C : Cl A) (D : Cl B) (p : A * B), clv p -> clv (fst p).
Proof. intros A B C D p H. apply H. Qed.
Lemma clv_snd : forall A B (C : Cl A) (D : Cl B) (p : A * B), clv p -> clv (snd p).
Proof. intros A B C D p H. apply H. Qed.
Lemma clv_inl : forall A B (C : Cl A) (D : Cl B) (a : A), clv a -> clv (@inl A B a).
Proof. auto. Qed.
Lemma clv_inr : forall A B (C : Cl A) (D : Cl B) (b : B), clv b -> clv (@inr A B b).
Proof. auto. Qed.
Lemma clv_triv : forall A (a : A), @clv A Cl_default a.
Proof. intros; exact I. Qed.
Lemma clv_all_triv : forall A (l : list A), @clv (list A) (@Cl_list A Cl_default) l.
Proof. intros A l. apply Forall_forall. intros; exact I. Qed.
Lemma clv_opt_triv : forall A (o : option A), @clv (option A) (@Cl_option A Cl_default) o.
Proof. intros A [a|]; exact I. Qed.
Lemma clv_FS : forall s, clv s -> clv (FS s).
Proof. auto. Qed.
Lemma clv_FC : forall c, clv c -> clv (FC c).
Proof. auto. Qed.
Lemma clv_FD : forall z, clv (FD z).
Proof. intro; exact I. Qed.
Lemma clv_assoc : forall A (C : Cl A) k (l : list (nat * A)), clv l -> clv (assoc k l).
Proof.
  intros A C k l H. induction l as [|[k' a] l IH]; [exact I|]. apply clv_inv in H. cbn [assoc]. destruct (k =? k'); [apply H|]. apply IH. tauto.
Qed.
Lemma clv_aupd : forall A (C : Cl A) k f (l : list (nat * A)), clv l -> (forall a, clv a -> clv (f a)) -> clv (aupd k f l).
Proof.
  intros A C k f l H Hf. unfold aupd. eapply clv_map; [exact H|]. intros p [_ Hp]. destruct (k =? fst p); split; try exact I; auto. apply Hf. exact Hp.
Qed.
Lemma clv_adel : forall A (C : Cl A) k (l : list (nat * A)), clv l -> clv (adel k l).
Proof. intros. unfold adel. apply clv_filter. auto. Qed.
Lemma clv_upd_nth : forall A (C : Cl A) n f (l : list A), clv l -> (forall a, clv a -> clv (f a)) -> clv (upd_nth n f l).
Proof.
  intros A C n f l H Hf. unfold upd_nth. apply clv_app; [apply clv_firstn; auto|]. pose proof (clv_skipn A C n l H) as K.
  destruct (skipn n l); [constructor|]. apply clv_inv in K. constructor; [apply Hf|]; tauto.
Qed.

(** ---- strings ---- *)
Definition okc (c : ascii) : bool := negb (Ascii.eqb c CR) && negb (Ascii.eqb c LF).
Lemma okc_clv : forall c, okc c = true -> clv c.
Proof.
  intros c H. apply andb_true_iff in H. destruct H as [H1 H2]. apply negb_true_iff in H1, H2. apply Ascii.eqb_neq in H1, H2. split; auto.
Qed.
Lemma okb_clv : forall b : bytes, forallb okc b = true -> clv b.
Proof. intros b H. apply Forall_forall. intros c Hc. apply okc_clv. rewrite forallb_forall in H. auto. Qed.
Lemma clv_tolower : forall c, clv c -> clv (tolower c).
Proof.
  intros c H. unfold tolower. destruct (_ && _)%bool eqn:E; [|exact H]. apply andb_true_iff in E. destruct E as [E1 E2].
  apply N.leb_le in E1, E2. split; intro X; apply (f_equal N_of_ascii) in X; rewrite N_ascii_embedding in X by lia; revert X; vm_compute (N_of_ascii CR); vm_compute (N_of_ascii LF); lia.
Qed.
Lemma clv_toupper : forall c, clv c -> clv (toupper c).
Proof.
  intros c H. unfold toupper. destruct (_ && _)%bool eqn:E; [|exact H]. apply andb_true_iff in E. destruct E as [E1 E2].
  apply N.leb_le in E1, E2. split; intro X; apply (f_equal N_of_ascii) in X; rewrite N_ascii_embedding in X by lia; revert X; vm_compute (N_of_ascii CR); vm_compute (N_of_ascii LF); lia.
Qed.
Lemma clv_lower : forall b : bytes, clv b -> clv (lower b).
Proof. intros. apply (clv_map ascii ascii Cl_ascii Cl_ascii); auto using clv_tolower. Qed.
Lemma clv_upper : forall b : bytes, clv b -> clv (upper b).
Proof. intros. apply (clv_map ascii ascii Cl_ascii Cl_ascii); auto using clv_toupper. Qed.
Lemma clv_strlcpy : forall n (b : bytes), clv b -> clv (strlcpy n b).
Proof. intros n b H. unfold strlcpy. destruct (_ <=? _); auto. apply (clv_firstn ascii Cl_ascii); auto. Qed.
Lemma clv_strlcat : forall n (a b : bytes), clv a -> clv b -> clv (strlcat n a b).
Proof.
  intros n a b Ha Hb. unfold strlcat. destruct (_ && _); auto. apply (clv_app ascii Cl_ascii); auto. destruct (_ <=? _); auto. apply (clv_firstn ascii Cl_ascii); auto.
Qed.
Lemma clv_cut0 : forall b : bytes, clv b -> clv (cut0 b).
Proof. intros b H. induction b as [|a b IH]; [constructor|]. apply (clv_inv ascii Cl_ascii) in H. cbn [cut0]. destruct (Ascii.eqb a NUL); constructor; tauto. Qed.
Lemma clv_strchr : forall c (b : bytes), clv b -> clv (strchr c b).
Proof.
  intros c b. induction b as [|x r IH]; intro H; [exact I|]. cbn [strchr]. destruct (Ascii.eqb x c); [split; [constructor|exact H]|].
  apply (clv_inv ascii Cl_ascii) in H. destruct H as [H1 H2]. specialize (IH H2). destruct (strchr c r) as [[p f]|]; [|exact I]. destruct IH as [I1 I2]. split; [constructor; auto|auto].
Qed.
Lemma clv_drop_while : forall f (b : bytes), clv b -> clv (drop_while f b).
Proof. intros f b. induction b as [|c r IH]; intro H; [constructor|]. cbn [drop_while]. destruct (f c); auto. apply (clv_inv ascii Cl_ascii) in H. apply IH; tauto. Qed.
Lemma clv_trim : forall b : bytes, clv b -> clv (trim b).
Proof. intros. unfold trim. apply (clv_rev ascii Cl_ascii), clv_drop_while, (clv_rev ascii Cl_ascii), clv_drop_while. auto. Qed.
Lemma clv_trim_last : forall c (b : bytes), clv b -> clv (trim_last c b).
Proof.
  intros c b H. unfold trim_last. pose proof (clv_rev ascii Cl_ascii b H) as K. destruct (rev b) as [|x r]; [constructor|]. destruct (Ascii.eqb x c); auto.
  apply clv_inv in K. apply (clv_rev ascii Cl_ascii). tauto.
Qed.
Lemma clv_strtok : forall d (b : bytes), clv b -> clv (strtok d b).
Proof.
  intros d b H. unfold strtok. assert (K : clv (@nil ascii)) by constructor. revert H K. generalize (@nil ascii). induction b as [|c r IH]; intros cur H K; cbn [strtok_aux].
  - destruct cur; [constructor|]. constructor; [|constructor]. apply (clv_rev ascii Cl_ascii). exact K.
  - apply (clv_inv ascii Cl_ascii) in H. destruct H as [H1 H2]. destruct (Ascii.eqb c d).
    + destruct cur; [apply IH; auto|]. constructor; [apply (clv_rev ascii Cl_ascii); exact K|]. apply IH; auto. constructor.
    + apply IH; auto. constructor; auto.
Qed.
Lemma clv_hd0 : forall b : bytes, clv b -> clv (hd0 b).
Proof. intros [|c b] H; [apply okc_clv; reflexivity|]. apply (clv_inv ascii Cl_ascii) in H. apply H. Qed.
Lemma clv_uint : forall u, clv (list_ascii_of_string (NilEmpty.string_of_uint u)).
Proof. induction u; simpl; constructor; auto; apply okc_clv; reflexivity. Qed.
Lemma clv_dec_N : forall n, clv (dec_N n).
Proof. intro n. unfold dec_N, NilZero.string_of_uint. destruct (N.to_uint n); try apply clv_uint. apply okb_clv. reflexivity. Qed.
Lemma clv_dec : forall z, clv (dec z).
Proof. intro z. unfold dec. destruct (_ <? _)%Z; [constructor; [apply okc_clv; reflexivity|]|]; apply clv_dec_N. Qed.
Lemma clv_dec2 : forall z, clv (dec2 z).
Proof. intro z. unfold dec2. destruct (_ <? _)%Z; [constructor; [apply okc_clv; reflexivity|]|]; apply clv_dec. Qed.
Lemma clv_hexdigit : forall n, (n < 16)%N -> clv (hexdigit n).
Proof.
  intros n H. unfold hexdigit. destruct (N.ltb_spec n 10); split; intro X; apply (f_equal N_of_ascii) in X; rewrite N_ascii_embedding in X by lia; revert X; vm_compute (N_of_ascii CR); vm_compute (N_of_ascii LF); lia.
Qed.
Lemma clv_hex : forall n, clv (hex n).
Proof.
  intro n. unfold hex. assert (K : clv (@nil ascii)) by constructor. revert n K. generalize (@nil ascii). generalize 8. induction n as [|k IH]; intros acc n K; cbn [hex_aux]; [exact K|].
  assert (K2 : clv (hexdigit (n mod 16) :: acc)) by (constructor; [apply clv_hexdigit; apply N.mod_lt; lia|exact K]).
  destruct (n <? 16)%N; [exact K2|]. apply IH. exact K2.
Qed.
Lemma clv_fmt : forall f args, clv f -> clv args -> clv (fmt f args).
Proof.
  intros f. remember (List.length f) as n eqn:En. assert (L : List.length f <= n) by lia. clear En. revert f L.
  induction n as [|n IH]; intros f L args Hf Ha; destruct f as [|c f1]; try (constructor; fail); [simpl in L; lia|].
  apply (clv_inv ascii Cl_ascii) in Hf. destruct Hf as [Hc Hf]. simpl in L. cbn [fmt].
  assert (Q : forall f a, List.length f <= n -> clv f -> clv a -> clv (fmt f a)) by (intros; apply IH; auto).
  destruct (Ascii.eqb c "%"); [|constructor; [exact Hc|]; apply Q; auto; lia].
  destruct f1 as [|d f2]; [constructor|]. apply (clv_inv ascii Cl_ascii) in Hf. destruct Hf as [Hd Hf]. simpl in L.
  destruct (Ascii.eqb d "%"). { constructor; [apply okc_clv; reflexivity|]. apply Q; auto; lia. }
  assert (QA : forall x a, args = x :: a -> clv x /\ clv a) by (intros x a ->; apply clv_inv in Ha; exact Ha).
  destruct (Ascii.eqb d "s").
  { destruct args as [|[s|z|x] a]; try constructor. destruct (QA _ _ eq_refl) as [X Y]. apply (clv_app ascii Cl_ascii); [exact X|]. apply Q; auto; lia. }
  destruct (Ascii.eqb d "c").
  { destruct args as [|[s|z|x] a]; try (constructor; fail). destruct (QA _ _ eq_refl) as [X Y]. constructor; [exact X|]. apply Q; auto; lia. }
  destruct (Ascii.eqb d "d" || Ascii.eqb d "u").
  { destruct args as [|[s|z|x] a]; try constructor. destruct (QA _ _ eq_refl) as [X Y]. apply (clv_app ascii Cl_ascii); [apply clv_dec|]. apply Q; auto; lia. }
  destruct (Ascii.eqb d "x").
  { destruct args as [|[s|z|x] a]; try constructor. destruct (QA _ _ eq_refl) as [X Y]. apply (clv_app ascii Cl_ascii); [apply clv_hex|]. apply Q; auto; lia. }
  assert (T : forall x (f : bytes), clv (x :: f) -> clv f) by (intros x f H; apply (clv_inv ascii Cl_ascii) in H; tauto).
  destruct (Ascii.eqb d "0").
  { destruct f2 as [|x1 [|x2 f3]]; try constructor. destruct args as [|[s|z|x] a]; try constructor. destruct (QA _ _ eq_refl) as [X Y]. apply (clv_app ascii Cl_ascii); [apply clv_dec2|]. apply Q; auto; [simpl in L; lia|eauto]. }
  destruct (Ascii.eqb d ".").
  { destruct f2 as [|x1 [|x2 f3]]; try constructor. destruct args as [|[s|z|x] a]; try constructor. destruct (QA _ _ eq_refl) as [X Y]. apply (clv_app ascii Cl_ascii); [exact X|]. apply Q; auto; [simpl in L; lia|eauto]. }
  destruct (Ascii.eqb d "l").
  { destruct f2 as [|x1 f3]; try constructor. destruct args as [|[s|z|x] a]; try constructor. destruct (QA _ _ eq_refl) as [X Y]. apply (clv_app ascii Cl_ascii); [apply clv_dec|]. apply Q; auto; [simpl in L; lia|eauto]. }
  constructor.
Qed.
