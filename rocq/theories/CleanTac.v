(** C08: proof search for clean values. *)
From Coq Require Import List Ascii String ZArith NArith Bool Lia Arith.
From Verif Require Import Bytes Strl Match Lists Hash ParseReq State Messages Monad Core Clean0 CleanRec Clean.
Import ListNotations.
Local Open Scope m_scope.

Lemma clv_let : forall A B (C : Cl A) (D : Cl B) (f : A -> B) (v : A), clv v -> (forall x, clv x -> clv (f x)) -> clv (let x := v in f x).
Proof. intros. cbv zeta. auto. Qed.
Lemma clv_pair_inv : forall A B (C : Cl A) (D : Cl B) (a : A) (b : B), clv (a, b) -> clv a /\ clv b.
Proof. intros A B C D a b H. exact H. Qed.
Lemma clv_some_inv : forall A (C : Cl A) (a : A), clv (Some a) -> clv a.
Proof. auto. Qed.
Lemma clv_inl_inv : forall A B (C : Cl A) (D : Cl B) (a : A), clv (@inl A B a) -> clv a.
Proof. auto. Qed.
Lemma clv_inr_inv : forall A B (C : Cl A) (D : Cl B) (b : B), clv (@inr A B b) -> clv b.
Proof. auto. Qed.

Lemma clv_app1 : forall A B (C : Cl A) (D : Cl B) (f : A -> B) a, clv f -> clv a -> clv (f a).
Proof. intros A B C D f a H. apply H. Qed.
Lemma clv_app2 : forall A B E (C : Cl A) (D : Cl B) (F : Cl E) (f : A -> B -> E) a b, clv f -> clv a -> clv b -> clv (f a b).
Proof. intros A B E C D F f a b H Ha. apply H. exact Ha. Qed.
Lemma clv_app3 : forall A B E G (C : Cl A) (D : Cl B) (F : Cl E) (K : Cl G) (f : A -> B -> E -> G) a b e, clv f -> clv a -> clv b -> clv e -> clv (f a b e).
Proof. intros A B E G C D F K f a b e H Ha Hb. apply H; assumption. Qed.
Ltac inv_more H := idtac.
Ltac inv_clv H :=
  lazymatch type of H with
  | @clv _ Cl_default _ => clear H
  | @clv _ _ (_ :: _) => let H1 := fresh "Hc" in let H2 := fresh "Hc" in apply clv_inv in H; destruct H as [H1 H2]; inv_clv H1; inv_clv H2
  | @clv _ _ (_, _) => let H1 := fresh "Hc" in let H2 := fresh "Hc" in apply clv_pair_inv in H; destruct H as [H1 H2]; inv_clv H1; inv_clv H2
  | @clv _ _ (Some _) => apply clv_some_inv in H; inv_clv H
  | @clv _ _ (inl _) => apply clv_inl_inv in H; inv_clv H
  | @clv _ _ (inr _) => apply clv_inr_inv in H; inv_clv H
  | @clv _ _ nil => clear H
  | @clv _ _ None => clear H
  | _ => inv_more H
  end.
Ltac cl_invs := repeat match goal with H : @clv _ _ (_ :: _) |- _ => inv_clv H | H : @clv _ _ (_, _) |- _ => inv_clv H | H : @clv _ _ (Some _) |- _ => inv_clv H end.
Ltac cl_intro := let x := fresh "x" in let H := fresh "Hc" in intros x H; inv_clv H.
Ltac inst A := constr:(ltac:(typeclasses eauto) : Cl A).

Ltac cl_bind := match goal with |- @clv _ _ (@bind ?A ?B ?m ?k) => let C := inst A in apply (clv_bind A B C _ m k); [|cl_intro] end.
Ltac cl_let := lazymatch goal with |- @clv _ ?D (let x := ?v in @?f x) =>
    let A := type of v in let C := inst A in
    lazymatch C with
    | Cl_default => cbv zeta
    | _ => first [apply (clv_let A _ C D f v); [solve [auto 40 with clv nocore]|cl_intro; cbv beta] | cbv zeta] end
  end.
Ltac cl_match :=
  lazymatch goal with
  | |- @clv _ _ (match ?t with _ => _ end) =>
      let T := type of t in
      tryif is_var t then
        first [match goal with H : @clv _ _ t |- _ => revert H; destruct t; intro H; inv_clv H end | destruct t]
      else
        (let C := inst T in
         lazymatch C with
         | Cl_default => destruct t
         | _ => let H := fresh "Hc" in assert (H : @clv T C t) by (auto 40 with clv nocore); revert H; destruct t; intro H; inv_clv H
         end)
  end.

#[export] Hint Extern 0 (@clv _ _ (bind _ _)) => cl_bind : clv.
#[export] Hint Extern 0 (@clv _ Cl_default _) => exact I : clv.
#[export] Hint Extern 0 (@clv _ (@Cl_list _ Cl_default) _) => apply clv_all_triv : clv.
#[export] Hint Extern 0 (@clv _ (@Cl_option _ Cl_default) _) => apply clv_opt_triv : clv.
#[export] Hint Extern 0 (@clv _ _ (ret _)) => apply clv_ret : clv.
#[export] Hint Extern 0 (@clv _ _ skip) => (apply clv_ret; exact I) : clv.
#[export] Hint Extern 0 (@clv _ _ (bad _)) => apply clv_bad : clv.
#[export] Hint Extern 0 (@clv _ _ (gets _)) => (apply clv_gets; cl_intro; cbv beta) : clv.
#[export] Hint Extern 0 (@clv _ _ (modify _)) => (apply clv_modify; cl_intro; cbv beta) : clv.
#[export] Hint Extern 0 (@clv _ _ (cf _)) => (apply clv_cf; cl_intro; cbv beta) : clv.
#[export] Hint Extern 0 (@clv _ _ (assertM _)) => apply clv_assertM : clv.
#[export] Hint Extern 0 (@clv _ _ (nonnull _)) => apply clv_nonnull : clv.
#[export] Hint Extern 0 (@clv _ _ (whenM _ _)) => apply clv_whenM : clv.
#[export] Hint Extern 0 (@clv _ _ (andM _ _)) => apply clv_andM : clv.
#[export] Hint Extern 0 (@clv _ _ (orM _ _)) => apply clv_orM : clv.
#[export] Hint Extern 0 (@clv _ _ (notM _)) => apply clv_notM : clv.
Ltac cl_mfor := match goal with |- @clv _ _ (@mfor ?A ?l ?f) => let C := inst A in apply (clv_mfor A C l f); [|cl_intro; cbv beta] end.
Ltac cl_mfold := match goal with |- @clv _ (@Cl_M _ ?D) (@mfold ?A ?B ?f ?l ?b) => let C := inst A in apply (clv_mfold A B C D f l b); [| |let b := fresh in let a := fresh in let H := fresh "Hc" in let H' := fresh "Hc" in intros b a H H'; inv_clv H; inv_clv H'; cbv beta] end.
Ltac cl_mloop := match goal with |- @clv _ (@Cl_M _ (@Cl_option _ ?D)) (@mloop ?A ?R ?l ?f) => let C := inst A in apply (clv_mloop A R C D f l); [|cl_intro; cbv beta] 
                 | |- @clv _ _ (@mloop ?A ?R ?l ?f) => let C := inst A in let D := inst R in apply (clv_mloop A R C D f l); [|cl_intro; cbv beta] end.
Ltac cl_mfind := match goal with |- @clv _ _ (@mfind ?A ?f ?l) => let C := inst A in apply (clv_mfind A C f l); [|cl_intro; cbv beta] end.
Ltac cl_mcount := match goal with |- @clv _ _ (@mcount ?A ?f ?l) => let C := inst A in apply (clv_mcount A C f l); [|cl_intro; cbv beta] end.
Ltac cl_map := match goal with |- @clv _ _ (@map ?A ?B0 ?f ?l) => let C := inst A in let D := inst B0 in apply (clv_map A B0 C D f l); [|cl_intro; cbv beta] end.
Ltac cl_flat_map := match goal with |- @clv _ _ (@flat_map ?A ?B0 ?f ?l) => let C := inst A in let D := inst B0 in apply (clv_flat_map A B0 C D f l); [|cl_intro; cbv beta] end.
#[export] Hint Extern 0 (@clv _ _ (fst _)) => (match goal with |- @clv _ ?D (@fst ?A ?B0 ?p) => let C := inst B0 in apply (clv_fst A B0 D C p) end) : clv.
#[export] Hint Extern 0 (@clv _ _ (snd _)) => (match goal with |- @clv _ ?D (@snd ?A ?B0 ?p) => let C := inst A in apply (clv_snd A B0 C D p) end) : clv.
Lemma clv_option_map : forall A E (C : Cl A) (D : Cl E) (f : A -> E) o, clv o -> (forall a, clv a -> clv (f a)) -> clv (option_map f o).
Proof. intros A E C D f [a|] H Hf; [apply Hf; exact H|exact I]. Qed.
#[export] Hint Extern 0 (@clv _ _ (option_map _ _)) => (match goal with |- @clv _ _ (@option_map ?A ?B0 ?f ?o) => let C := inst A in let D := inst B0 in apply (clv_option_map A B0 C D f o); [|cl_intro; cbv beta] end) : clv.
#[export] Hint Extern 4 (@clv _ _ (B (match ?x with _ => _ end))) => destruct x : clv.
Lemma clv_fold_left : forall A E (C : Cl A) (D : Cl E) (f : E -> A -> E) l e, clv l -> clv e -> (forall e a, clv e -> clv a -> clv (f e a)) -> clv (fold_left f l e).
Proof.
  intros A E C D f l. induction l as [|a l IH]; intros e Hl He Hf; [exact He|]. apply clv_inv in Hl. cbn [fold_left]. apply IH; [tauto| |exact Hf]. apply Hf; tauto.
Qed.
#[export] Hint Extern 0 (@clv _ _ (fold_left _ _ _)) => (match goal with |- @clv _ ?D (@fold_left ?A ?B0 ?f ?l ?e) => let C := inst B0 in apply (clv_fold_left B0 A C D f l e); [| |let b := fresh in let a := fresh in let H := fresh "Hc" in let H' := fresh "Hc" in intros b a H H'; inv_clv H; inv_clv H'; cbv beta] end) : clv.
Lemma clv_B_string : forall b : bytes, clv b -> clv (B (string_of_list_ascii b)).
Proof. intros b H. unfold B. rewrite list_ascii_of_string_of_list_ascii. exact H. Qed.
#[export] Hint Resolve clv_B_string : clv.
Lemma clv_hd_error : forall A (C : Cl A) (l : list A), clv l -> clv (hd_error l).
Proof. intros A C [|a l] H; [exact I|]. apply clv_inv in H. apply H. Qed.
#[export] Hint Extern 0 (@clv _ _ (hd_error _)) => apply clv_hd_error : clv.
Lemma clv_last : forall A (C : Cl A) (l : list A) d, clv l -> clv d -> clv (last l d).
Proof. intros A C l d Hl Hd. induction l as [|a l IH]; [exact Hd|]. apply clv_inv in Hl. destruct Hl as [Ha Hl]. cbn [last]. destruct l; [exact Ha|apply IH; exact Hl]. Qed.
Lemma clv_removelast : forall A (C : Cl A) (l : list A), clv l -> clv (removelast l).
Proof. intros A C l Hl. induction l as [|a l IH]; [constructor|]. apply clv_inv in Hl. destruct Hl as [Ha Hl]. cbn [removelast]. destruct l; [constructor|]. apply clv_cons; [exact Ha|apply IH; exact Hl]. Qed.
#[export] Hint Extern 0 (@clv _ _ (last _ _)) => apply clv_last : clv.
#[export] Hint Extern 0 (@clv _ _ (removelast _)) => apply clv_removelast : clv.
#[export] Hint Extern 0 (@clv _ _ (combine _ _)) => apply clv_combine : clv.
#[export] Hint Extern 0 (@clv _ _ (mfor _ _)) => cl_mfor : clv.
#[export] Hint Extern 0 (@clv _ _ (mfold _ _ _)) => cl_mfold : clv.
#[export] Hint Extern 0 (@clv _ _ (mloop _ _)) => cl_mloop : clv.
#[export] Hint Extern 0 (@clv _ _ (mfind _ _)) => cl_mfind : clv.
#[export] Hint Extern 0 (@clv _ _ (mcount _ _)) => cl_mcount : clv.
#[export] Hint Extern 0 (@clv _ _ (mseq _)) => apply clv_mseq : clv.
#[export] Hint Extern 0 (@clv _ _ (map _ _)) => cl_map : clv.
#[export] Hint Extern 0 (@clv _ _ (flat_map _ _)) => cl_flat_map : clv.
#[export] Hint Extern 0 (@clv _ _ nil) => apply clv_nil : clv.
#[export] Hint Extern 0 (@clv _ _ (_ :: _)) => apply clv_cons : clv.
#[export] Hint Extern 0 (@clv _ _ (_ ++ _)) => apply clv_app : clv.
#[export] Hint Extern 0 (@clv _ _ (filter _ _)) => apply clv_filter : clv.
#[export] Hint Extern 0 (@clv _ _ (firstn _ _)) => apply clv_firstn : clv.
#[export] Hint Extern 0 (@clv _ _ (skipn _ _)) => apply clv_skipn : clv.
#[export] Hint Extern 0 (@clv _ _ (rev _)) => apply clv_rev : clv.
#[export] Hint Extern 0 (@clv _ _ (find _ _)) => apply clv_find : clv.
#[export] Hint Extern 0 (@clv _ _ (nth_error _ _)) => apply clv_nth_error : clv.
#[export] Hint Extern 0 (@clv _ _ (nth _ _ _)) => apply clv_nth : clv.
#[export] Hint Extern 0 (@clv _ _ (hd _ _)) => apply clv_hd : clv.
#[export] Hint Extern 0 (@clv _ _ (tl _)) => apply clv_tl : clv.
#[export] Hint Extern 0 (@clv _ _ (List.concat _)) => apply clv_concat : clv.
#[export] Hint Extern 0 (@clv _ _ (Some _)) => apply clv_Some : clv.
#[export] Hint Extern 0 (@clv _ _ None) => exact I : clv.
#[export] Hint Extern 0 (@clv _ _ (_, _)) => apply clv_pair : clv.
#[export] Hint Extern 0 (@clv _ _ (inl _)) => apply clv_inl : clv.
#[export] Hint Extern 0 (@clv _ _ (inr _)) => apply clv_inr : clv.
#[export] Hint Extern 0 (@clv _ _ (FS _)) => apply clv_FS : clv.
#[export] Hint Extern 0 (@clv _ _ (FC _)) => apply clv_FC : clv.
#[export] Hint Extern 0 (@clv _ _ (FD _)) => apply clv_FD : clv.
#[export] Hint Extern 0 (@clv _ _ (assoc _ _)) => apply clv_assoc : clv.
#[export] Hint Extern 0 (@clv _ _ (aupd _ _ _)) => (apply clv_aupd; [|cl_intro; cbv beta]) : clv.
#[export] Hint Extern 0 (@clv _ _ (adel _ _)) => apply clv_adel : clv.
#[export] Hint Extern 0 (@clv _ _ (upd_nth _ _ _)) => (apply clv_upd_nth; [|cl_intro; cbv beta]) : clv.
#[export] Hint Extern 0 (@clv _ _ (B _)) => (apply okb_clv; reflexivity) : clv.
#[export] Hint Extern 0 (@clv _ _ (Ascii _ _ _ _ _ _ _ _)) => (apply okc_clv; reflexivity) : clv.
#[export] Hint Extern 1 (@clv _ _ (?f _)) => (is_var f; match goal with H : @clv (_ -> _) (@Cl_fun _ _ ?C ?D) f |- @clv _ _ (f ?a) => apply (clv_app1 _ _ C D f a H) end) : clv.
#[export] Hint Extern 1 (@clv _ _ (?f _ _)) => (is_var f; match goal with H : @clv (_ -> _) (@Cl_fun _ _ ?C (@Cl_fun _ _ ?D ?F)) f |- @clv _ _ (f ?a ?b) => apply (clv_app2 _ _ _ C D F f a b H) end) : clv.
#[export] Hint Extern 1 (@clv _ _ (?f _ _ _)) => (is_var f; match goal with H : @clv (_ -> _) (@Cl_fun _ _ ?C (@Cl_fun _ _ ?D (@Cl_fun _ _ ?F ?K))) f |- @clv _ _ (f ?a ?b ?e) => apply (clv_app3 _ _ _ _ C D F K f a b e H) end) : clv.
#[export] Hint Extern 2 (@clv _ _ (let x := _ in _)) => cl_let : clv.
#[export] Hint Extern 3 (@clv _ _ (match _ with _ => _ end)) => cl_match : clv.
Ltac cl_fun := match goal with |- @clv (?A -> ?E) (@Cl_fun _ _ ?C ?D) ?f => change (forall a : A, @clv A C a -> @clv E D (f a)); cl_intro; cbv beta end.
#[export] Hint Extern 0 (@clv (_ -> _) _ _) => cl_fun : clv.
#[export] Hint Resolve clv_tolower clv_toupper clv_lower clv_upper clv_strlcpy clv_strlcat clv_cut0 clv_strchr clv_trim clv_trim_last
  clv_strtok clv_hd0 clv_dec_N clv_dec clv_dec2 clv_hex clv_fmt clv_drop_while : clv.

#[export] Hint Transparent Cl_marg marg Cl_bytes bytes Cl_mlist mlist : clv.
Ltac cl_auto := solve [auto 200 with clv nocore].
Lemma clv_cli : forall h, clv (cli h).
Proof.
  intros h s c s' S E. unfold cli in E. destruct (assoc h (s_heap s)) eqn:A; [|discriminate]. injection E as <- <-. split; [exact S|].
  pose proof (clv_assoc client _ h (s_heap s) (k_s_heap _ S)) as K. rewrite A in K. exact K.
Qed.
Lemma clv_chan : forall h, clv (chan h).
Proof.
  intros h s c s' S E. unfold chan in E. destruct (assoc h (s_chans s)) eqn:A; [|discriminate]. injection E as <- <-. split; [exact S|].
  pose proof (clv_assoc channel _ h (s_chans s) (k_s_chans _ S)) as K. rewrite A in K. exact K.
Qed.
Lemma clv_closed_conn : forall t, clv (closed_conn t).
Proof. intro t. constructor; cbn; repeat constructor. Qed.
Lemma clv_con : forall h, clv (con h).
Proof.
  intros h s c s' S E. unfold con in E. pose proof (clv_assoc conn _ h (s_conns s) (k_s_conns _ S)) as K.
  destruct (assoc h (s_conns s)) eqn:A; injection E as <- <-; (split; [exact S|]); [exact K|apply clv_closed_conn].
Qed.
#[export] Hint Resolve clv_cli clv_chan clv_con clv_closed_conn : clv.
Lemma clv_upd_cli : forall h f, (forall c, clv c -> clv (f c)) -> clv (upd_cli h f).
Proof. intros. unfold upd_cli. cl_auto. Qed.
Lemma clv_upd_chan : forall h f, (forall c, clv c -> clv (f c)) -> clv (upd_chan h f).
Proof. intros. unfold upd_chan. cl_auto. Qed.
Lemma clv_upd_con : forall h f, (forall c, clv c -> clv (f c)) -> clv (upd_con h f).
Proof. intros. unfold upd_con. cl_auto. Qed.
Lemma clv_now : clv now.
Proof. unfold now. cl_auto. Qed.
#[export] Hint Resolve clv_now : clv.
#[export] Hint Extern 0 (@clv _ _ (upd_cli _ _)) => (apply clv_upd_cli; cl_intro; cbv beta) : clv.
#[export] Hint Extern 0 (@clv _ _ (upd_chan _ _)) => (apply clv_upd_chan; cl_intro; cbv beta) : clv.
#[export] Hint Extern 0 (@clv _ _ (upd_con _ _)) => (apply clv_upd_con; cl_intro; cbv beta) : clv.
Lemma clv_sfmt : forall f args, clv (B f) -> clv args -> clv (sfmt f args).
Proof. intros. unfold sfmt. cl_auto. Qed.
Lemma clv_snprintf : forall n f args, clv (B f) -> clv args -> clv (snprintf n f args).
Proof. intros. unfold snprintf. cl_auto. Qed.
Lemma clv_NUL : clv NUL. Proof. apply okc_clv; reflexivity. Qed.
Lemma clv_SP : clv SP. Proof. apply okc_clv; reflexivity. Qed.
Lemma clv_TAB : clv TAB. Proof. apply okc_clv; reflexivity. Qed.
#[export] Hint Resolve clv_sfmt clv_snprintf clv_NUL clv_SP clv_TAB : clv.
Lemma clv_B : forall s : string, clv s -> clv (B s).
Proof. intros s H. exact H. Qed.
Lemma clv_Bs : forall s : string, clv (B s) -> clv s.
Proof. intros s H. exact H. Qed.
#[export] Hint Resolve clv_B : clv.
#[export] Hint Extern 0 (@clv string _ (String _ _)) => (apply clv_Bs; apply okb_clv; reflexivity) : clv.
(** for debugging *)
Ltac cl_go := repeat (first [ solve [auto 20 with clv nocore] | cl_bind | apply clv_ret | cl_let | cl_match | cl_mfor | cl_mfold | cl_mloop | cl_mfind | cl_mcount
  | apply clv_gets; cl_intro; cbv beta | apply clv_modify; cl_intro; cbv beta | cl_fun ]).
Ltac cl_all := first [cl_auto | solve [cl_go]].
