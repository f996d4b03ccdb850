(** C40: MODE reads nothing but its parameters, provided none of them from the third on is
    empty. *)
From Coq Require Import List Ascii String ZArith NArith Bool Lia Arith.
From Verif Require Import Bytes Strl Match Lists Hash ParseReq State Messages Monad Core Write Info Chan Mode Safe0 Safe1.
Import ListNotations.
Local Open Scope m_scope.

Definition full (a : bytes) : Prop := a <> [].

(** ** User modes *)
Lemma safe_user_modes : forall n client origin target pos rest set the_modes hh, full pos -> Forall full rest ->
  safe (user_modes n client origin target pos rest set the_modes hh).
Proof.
  induction n as [|n IH]; intros client origin target pos rest set the_modes hh Hp Hr; cbn [user_modes]; [apply safe_bad; discriminate|].
  assert (Q : forall s, exists o, next_mode pos rest s = Ok o s /\ forall p r, o = Some (p, r) -> full p /\ Forall full r).
  { intro s. unfold next_mode. destruct pos as [|c [|c' p]]; [contradiction Hp; reflexivity| |].
    - destruct rest as [|a r]; eexists; split; try reflexivity; intros q r' E; inversion E; subst. inversion Hr; auto.
    - eexists. split; [reflexivity|]. intros q r' E. inversion E; subst. split; [discriminate|exact Hr]. }
  intros s E. unfold bind in E at 1. destruct (Q s) as [o [E1 E2]]. rewrite E1 in E. revert E. apply (fun (x : safe _) => x s).
  destruct o as [[p r]|]; [|apply safe_ret]. destruct (E2 p r eq_refl) as [Hp' Hr'].
  cbv zeta. destruct (plusminus _); [apply IH; assumption|].
  apply safe_bind; [sf|]. intros [[ok x] h]. destruct (negb ok); [sf|]. destruct x; [|apply IH; assumption].
  apply safe_bind; [sf|]. intro. apply IH; assumption.
Qed.
Lemma safe_Client_Mode : forall client req origin target, Forall full (skipn 2 (rq_args req)) -> safe (Client_Mode client req origin target).
Proof.
  intros client req origin target H. unfold Client_Mode. apply safe_bind; [sf|]. intro usr.
  destruct (usr && _); [sf|]. destruct (argc req =? 1)%nat; [sf|]. cbv zeta.
  destruct (negb (plusminus _)) eqn:E; [sf|]. apply safe_bind; [|intros [[ok m] hh]; sf].
  apply safe_user_modes; [|exact H]. intro E0. rewrite E0 in E. discriminate E.
Qed.

(** ** Channel modes *)
Definition post {A} (P : A -> Prop) (m : M A) : Prop := forall s a s', m s = Ok a s' -> P a.
Lemma post_bind : forall A E (m : M A) (k : A -> M E) P, (forall a, post P (k a)) -> post P (bind m k).
Proof. intros A E m k P H s e s' Q. unfold bind in Q. destruct (m s) as [a s1|w]; [|discriminate]. exact (H a _ _ _ Q). Qed.
Lemma post_ret : forall A (a : A) (P : A -> Prop), P a -> post P (ret a).
Proof. intros A a P H s b s' Q. inversion Q. subst. exact H. Qed.

Definition good (st : cmst) : Prop :=
  (0 <= cm_marg st)%Z /\
  (cm_aarg st = (-1)%Z \/
   ((cm_marg st < cm_aarg st)%Z /\ forall i, (cm_aarg st <= i < cm_argc st)%Z -> full (cm_arg st i))).
Definition ready (st : cmst) : Prop := cm_skip st = true \/ full (cm_pos st).

Lemma upd_nth_length : forall A n (f : A -> A) l, List.length (upd_nth n f l) = List.length l.
Proof.
  intros A n f l. unfold upd_nth. rewrite <- (firstn_skipn n l) at 3. rewrite !app_length. f_equal. destruct (skipn n l); reflexivity.
Qed.
Lemma upd_nth_other : forall A n m (f : A -> A) l d, n < m -> nth m (upd_nth n f l) d = nth m l d.
Proof.
  intros A n m f l d H. unfold upd_nth. rewrite <- (firstn_skipn n l) at 3.
  destruct (skipn n l) as [|a r] eqn:E; [reflexivity|].
  assert (L : List.length (firstn n l) = n).
  { apply firstn_length_le. destruct (le_lt_dec n (List.length l)) as [?|G]; [assumption|]. rewrite skipn_all2 in E by lia. discriminate. }
  rewrite !app_nth2 by lia. destruct (m - List.length (firstn n l)) eqn:E2; [lia|reflexivity].
Qed.
Lemma good_consume : forall st, good st -> (cm_marg st < cm_aarg st)%Z -> good (consume st).
Proof.
  intros st [Hm [H|[H1 H2]]] L; [lia|]. split; [exact Hm|]. right. split; [cbn; lia|].
  intros i Hi. unfold cm_argc, cm_arg in *. cbn [consume cm_args cm_aarg] in Hi |- *.
  rewrite upd_nth_length in Hi. rewrite upd_nth_other by lia. apply (H2 i). split; [lia|exact (proj2 Hi)].
Qed.

Lemma good_inc : forall st, good st -> good (inc_count st). Proof. intros st H. exact H. Qed.
Lemma good_action : forall c st, good st -> good (set_action c st). Proof. intros c st H. exact H. Qed.
Lemma good_privs : forall h o a q st, good st -> good (set_privs h o a q st). Proof. intros h o a q st H. exact H. Qed.
Lemma good_mode : forall x st, good st -> good (add_mode x st). Proof. intros x st H. exact H. Qed.
Lemma good_arg : forall x st, good st -> good (add_arg x st). Proof. intros x st H. exact H. Qed.
Lemma good_none : forall st, good st -> good (set_aarg (-1) st). Proof. intros st [H _]. split; [exact H|left; reflexivity]. Qed.
Lemma good_step : forall st, good st -> (cm_marg st < cm_aarg st)%Z -> good (set_aarg (cm_aarg st + 1) st).
Proof.
  intros st [Hm [H|[H1 H2]]] L; [lia|]. split; [exact Hm|]. right. split; [cbn; lia|]. intros i Hi. apply H2. cbn in Hi. unfold cm_argc in *. cbn in Hi. lia.
Qed.

(** The state the loop goes on with. *)
Definition keep (P : cmst -> Prop) (v : verdict) : Prop := match v with V_Exit _ => True | V_Next _ st _ _ _ => P st end.
Definition fine (st : cmst) : Prop := good st /\ full (cm_pos st).
Lemma fine_inc : forall st, fine st -> fine (inc_count st). Proof. intros st H. exact H. Qed.
Lemma fine_consume : forall st, fine st -> (cm_marg st <? cm_aarg st)%Z = true -> fine (consume st).
Proof. intros st [G F] H. split; [apply good_consume; [exact G|apply Z.ltb_lt; exact H]|exact F]. Qed.
Lemma fine_consume' : forall st, fine st -> (cm_aarg st <=? cm_marg st)%Z = false -> fine (consume st).
Proof. intros st [G F] H. split; [apply good_consume; [exact G|apply Z.leb_gt; exact H]|exact F]. Qed.
Lemma fine_step : forall st, fine st -> (cm_marg st <? cm_aarg st)%Z = true -> fine (set_aarg (cm_aarg st + 1) st).
Proof. intros st [G F] H. split; [apply good_step; [exact G|apply Z.ltb_lt; exact H]|exact F]. Qed.
Ltac pst := repeat first
  [ apply post_bind; intro
  | progress cbv zeta beta
  | match goal with |- post _ (match ?t with _ => _ end) => destruct t eqn:? end
  | apply post_ret; cbn [keep]
  | exact I | assumption
  | match goal with |- fine (if ?b then _ else _) => destruct b eqn:? end ].
Lemma letter_fine : forall client origin command ch io im st c, fine st -> post (keep fine) (chan_letter client origin command ch io im st c).
Proof.
  intros client origin command ch io im st c H. pose proof (fine_inc st H) as H'.
  unfold chan_letter, letter_flag, letter_k, letter_l, letter_OP, letter_user, letter_list, deny_exit, deny_next, exit_unless_machine.
  pst; first [apply fine_consume; assumption | apply fine_consume'; assumption | apply fine_step; assumption | exact H'].
Qed.
Lemma apply_fine : forall origin ch st x ad t, fine st -> post (fun o => match o with Some st' => fine st' | None => True end) (chan_apply origin ch st x ad t).
Proof. intros origin ch st x ad t H. unfold chan_apply. pst; try discriminate; destruct ad; repeat match goal with |- context [if ?b then _ else _] => destruct b end; try exact I; exact H. Qed.
Lemma privs_fine : forall client ch io im st, fine st -> post fine (chan_privs client ch io im st).
Proof. intros client ch io im st H. unfold chan_privs. pst; exact H. Qed.

Lemma advance_fine : forall st s, good st -> ready st -> exists o, chan_advance st s = Ok o s /\ forall st', o = Some st' -> fine st'.
Proof.
  intros st s G R. unfold chan_advance.
  assert (Q : exists pos, (if cm_skip st then ret (cm_pos st) else match cm_pos st with [] => bad W_OverRead | _ :: p => ret p end) s = Ok pos s).
  { destruct R as [R|R]; [rewrite R; eexists; reflexivity|]. destruct (cm_skip st); [eexists; reflexivity|]. destruct (cm_pos st); [contradiction R; reflexivity|eexists; reflexivity]. }
  destruct Q as [pos Q]. unfold bind. rewrite Q. cbv zeta.
  destruct pos as [|c p].
  - destruct (cm_aarg st <? 0)%Z eqn:E0; [eexists; split; [reflexivity|discriminate]|]. apply Z.ltb_ge in E0.
    destruct G as [Hm [G|[G1 G2]]]; [lia|]. rewrite (proj2 (Z.ltb_lt _ _) G1).
    destruct (cm_argc st <=? cm_aarg st)%Z eqn:E1; [eexists; split; [reflexivity|discriminate]|]. apply Z.leb_gt in E1.
    eexists. split; [reflexivity|]. intros st' E. inversion E; subst st'; clear E. split; [|apply G2; lia].
    split; [cbn; lia|]. unfold cm_argc, cm_arg in *. cbn [cm_args cm_aarg cm_marg cm_pos].
    destruct (_ <? _)%Z eqn:E2; [right|left; reflexivity]. apply Z.ltb_lt in E2. split; [lia|]. intros i Hi. apply G2. lia.
  - eexists. split; [reflexivity|]. intros st' E. inversion E; subst st'; clear E. split; [exact G|discriminate].
Qed.

Lemma safe_bind_post : forall A E (P : A -> Prop) (m : M A) (k : A -> M E), safe m -> post P m -> (forall a, P a -> safe (k a)) -> safe (bind m k).
Proof.
  intros A E P m k Hm Hp Hk s. unfold bind. specialize (Hm s). specialize (Hp s). destruct (m s) as [a s'|w]; [exact (Hk a (Hp _ _ eq_refl) s')|congruence].
Qed.
Lemma safe_chan_modes : forall client origin command ch io im n st, good st -> ready st -> safe (chan_modes client origin command ch io im n st).
Proof.
  intros client origin command ch io im. induction n as [|n IH]; intros st G R; cbn [chan_modes]; [apply safe_bad; discriminate|].
  intro s. unfold bind at 1. destruct (advance_fine st s G R) as [o [E F]]. rewrite E. apply (fun (x : safe _) => x s).
  destruct o as [st1|]; [|apply safe_ret]. specialize (F st1 eq_refl). cbv zeta.
  assert (Hr : forall st, fine st -> safe (chan_modes client origin command ch io im n st)).
  { intros st2 [G2 F2]. apply IH; [exact G2|right; exact F2]. }
  destruct (plusminus _). { apply Hr. split; [apply good_action; apply F|apply F]. }
  apply safe_bind_post with (P := fine).
  { sf. }
  { apply privs_fine. destruct (_ <=? _)%Z; [split; [apply good_none; apply F|apply F]|exact F]. }
  intros st2 F2. apply safe_bind_post with (P := keep fine); [sf|apply letter_fine; exact F2|].
  intros v Hv. destruct v as [ok|ok st3 x ad t]; [sf|]. cbn [keep] in Hv. destruct (negb ok); [sf|].
  destruct x as [x|]; [|apply Hr; exact Hv].
  eapply safe_bind_post; [|apply apply_fine; exact Hv|]; [sf|]. intros [st4|] H4; [apply Hr; exact H4|sf].
Qed.
Lemma safe_Channel_Mode : forall client req origin ch, Forall full (skipn 2 (rq_args req)) -> safe (Channel_Mode client req origin ch).
Proof.
  intros client req origin ch H. unfold Channel_Mode.
  apply safe_bind; [sf|]. intro name. destruct (Ascii.eqb _ _); [sf|]. destruct (argc req <=? 1)%nat eqn:E1; [sf|].
  apply safe_bind; [sf|]. intro op. apply safe_bind; [sf|]. intro ocm. cbv zeta. apply safe_bind; [sf|]. intro ty. apply safe_bind; [sf|]. intro mem.
  destruct (negb mem && _ && _); [sf|].
  apply safe_bind; [|intros [ok st]; sf]. apply safe_chan_modes.
  - split; [cbn; lia|]. cbn [cm_aarg cm_marg]. destruct (2 <? argc req)%nat eqn:E2; [right|left; reflexivity].
    split; [lia|]. intros i Hi. unfold cm_arg, cm_argc in *. cbn [cm_args] in *.
    rewrite Forall_forall in H. apply H.
    assert (L : nth (Z.to_nat i) (rq_args req) [] = nth (Z.to_nat i - 2) (skipn 2 (rq_args req)) []).
    { destruct (rq_args req) as [|a [|b r]]; [cbn in Hi; lia|cbn in Hi; lia|]. cbn [skipn]. replace (Z.to_nat i) with (S (S (Z.to_nat i - 2))) at 1 by lia. reflexivity. }
    rewrite L. apply nth_In. rewrite skipn_length. lia.
  - unfold ready. cbn [cm_skip cm_pos]. destruct (plusminus (hd0 (arg req 1))) eqn:E; [right|left; reflexivity].
    intro E0. rewrite E0 in E. discriminate E.
Qed.

(** ** MODE *)
Lemma safe_IRC_MODE : forall h req, Forall full (skipn 2 (rq_args req)) -> safe (IRC_MODE h req).
Proof.
  intros h req H. unfold IRC_MODE. pose proof (fun c o t => safe_Client_Mode c req o t H). pose proof (fun c o t => safe_Channel_Mode c req o t H). sf.
Qed.
#[export] Hint Extern 0 (safe (IRC_MODE _ _)) => (apply safe_IRC_MODE; cbn [skipn rq_args]; first [assumption | apply Forall_nil]) : safe.
