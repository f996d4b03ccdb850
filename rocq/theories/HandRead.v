(** The lines executed for a connection are the lines of the received byte stream. *)
From Coq Require Import List Ascii String ZArith NArith Bool Lia Arith.
From Coq Require Import Relations RelationClasses.
From Verif Require Import Bytes Match Lists Hash ParseReq State Messages Monad Core Write Info Chan Mode Msg Login Oper Server Dispatch Conn.
From Verif Require Import Rel RelWrite RelInfo RelBase RelChan RelSrv RelInit RelKey RelCmd RelComp WF RelGone Frame Inv2 Inv4 Live Spec Observ HandOper HandConn.
Import ListNotations.
Local Open Scope m_scope.

(** ---- the pure part ---- *)
Definition no_eol (s : bytes) : Prop := forallb (fun c => negb (eol c)) s = true.
Lemma lines_from_app : forall l cur r, no_eol l -> lines_from cur (l ++ r) = lines_from (cur ++ l) r.
Proof.
  induction l as [|a l IH]; intros cur r H; cbn [app lines_from]. { rewrite app_nil_r. reflexivity. }
  unfold no_eol in H. cbn [forallb] in H. apply andb_true_iff in H. destruct H as [H1 H2]. apply negb_true_iff in H1. rewrite H1, IH by exact H2. rewrite <- app_assoc. reflexivity.
Qed.
Lemma lines_eols : forall t r, forallb eol t = true -> lines_from [] (t ++ r) = lines_from [] r.
Proof. induction t as [|a t IH]; intros r H; cbn [app lines_from]; auto. cbn [forallb] in H. apply andb_true_iff in H. destruct H as [-> H]. cbn. auto. Qed.
Lemma lines_step : forall l t r, no_eol l -> forallb eol t = true -> t <> [] -> lines_of (l ++ t ++ r) = match l with [] => [] | _ => [l] end ++ lines_of r.
Proof.
  intros l t r Hl Ht Nt. unfold lines_of. rewrite lines_from_app by auto. cbn [app]. destruct t as [|a t]; [contradiction|]. cbn [forallb] in Ht. apply andb_true_iff in Ht. destruct Ht as [Ha Ht].
  cbn [app lines_from]. rewrite Ha, lines_eols by auto. reflexivity.
Qed.
(** the beginning of an unfinished line *)
Fixpoint rest_from (cur s : bytes) : bytes :=
  match s with [] => cur | c :: r => if eol c then rest_from [] r else rest_from (cur ++ [c]) r end.
Definition rest_of (s : bytes) : bytes := rest_from [] s.
Lemma rest_from_cat : forall a cur b, rest_from cur (a ++ b) = rest_from (rest_from cur a) b.
Proof. induction a as [|x a IH]; intros cur b; cbn [app rest_from]; auto. destruct (eol x); auto. Qed.
Lemma lines_from_cat : forall a cur b, lines_from cur (a ++ b) = lines_from cur a ++ lines_from (rest_from cur a) b.
Proof. induction a as [|x a IH]; intros cur b; cbn [app rest_from lines_from]; auto. destruct (eol x); auto. rewrite IH, app_assoc. auto. Qed.
Lemma lines_of_cat : forall a b, lines_of (a ++ b) = lines_of a ++ lines_from (rest_of a) b.
Proof. intros. apply lines_from_cat. Qed.
Lemma rest_of_cat : forall a b, rest_of (a ++ b) = rest_from (rest_of a) b.
Proof. intros. apply rest_from_cat. Qed.
Lemma rest_eols : forall t, forallb eol t = true -> t <> [] -> forall cur, rest_from cur t = [].
Proof.
  induction t as [|a t IH]; intros H N cur; [contradiction|]. cbn [forallb] in H. apply andb_true_iff in H. destruct H as [Ha H]. cbn [rest_from]. rewrite Ha.
  destruct t as [|b t]; [reflexivity|]. apply IH; auto. discriminate.
Qed.
Lemma rest_step : forall l t r, forallb eol t = true -> t <> [] -> rest_of (l ++ t ++ r) = rest_of r.
Proof. intros l t r H N. rewrite rest_of_cat. rewrite rest_from_cat. rewrite (rest_eols t H N). reflexivity. Qed.
Lemma lines_none : forall l, no_eol l -> lines_of l = [].
Proof. intros l H. unfold lines_of. rewrite <- (app_nil_r l), lines_from_app by auto. reflexivity. Qed.
Lemma pos_char_spec : forall c s, match pos_char c s with
  | Some p => exists a b, s = a ++ c :: b /\ List.length a = p /\ ~ In c a
  | None => ~ In c s end.
Proof.
  induction s as [|x s IH]; cbn [pos_char]; [auto|]. destruct (Ascii.eqb x c) eqn:E.
  - apply Ascii.eqb_eq in E. subst. exists [], s. cbn. auto.
  - apply Ascii.eqb_neq in E. destruct (pos_char c s) as [p|]; cbn [option_map].
    + destruct IH as (a & b & -> & <- & N). exists (x :: a), b. cbn. repeat split; auto. intros [H|H]; auto.
    + intros [H|H]; auto.
Qed.
Lemma pos_crlf_spec : forall s p, pos_crlf s = Some p -> exists a b, s = a ++ CR :: LF :: b /\ List.length a = p.
Proof.
  induction s as [|x s IH]; intros p H; cbn [pos_crlf] in H; [discriminate|]. destruct (Ascii.eqb x CR && Ascii.eqb (hd0 s) LF) eqn:E.
  - apply andb_true_iff in E. destruct E as [E1 E2]. apply Ascii.eqb_eq in E1, E2. inversion H; subst. destruct s as [|y s]; cbn [hd0] in E2; [discriminate|]. subst. exists [], s. auto.
  - destruct (pos_crlf s) as [q|]; [|discriminate]. cbn in H. inversion H; subst. destruct (IH q eq_refl) as (a & b & -> & <-). exists (x :: a), b. auto.
Qed.
Lemma not_in_eol : forall s, ~ In CR s -> ~ In LF s -> no_eol s.
Proof.
  intros s H1 H2. unfold no_eol. apply forallb_forall. intros x Hx. apply negb_true_iff. unfold eol. apply orb_false_iff. split; apply Ascii.eqb_neq; intros ->; auto.
Qed.
Lemma cut0_id : forall s, ~ In NUL s -> cut0 s = s.
Proof.
  induction s as [|a s IH]; intro H; cbn [cut0]; auto. destruct (Ascii.eqb a NUL) eqn:E; [apply Ascii.eqb_eq in E; subst; exfalso; apply H; left; auto|]. rewrite IH; auto. intro X. apply H. right. auto.
Qed.
Lemma firstn_split : forall A (a b : list A) n, List.length a = n -> firstn n (a ++ b) = a /\ skipn n (a ++ b) = b.
Proof. intros A a b n <-. rewrite firstn_app, skipn_app, Nat.sub_diag, firstn_all, skipn_all. cbn. rewrite app_nil_r. auto. Qed.
Lemma split_at : forall A (a b a' b' : list A), a ++ b = a' ++ b' -> List.length a <= List.length a' -> exists c, a' = a ++ c.
Proof.
  induction a as [|x a IH]; intros b a' b' E L; [exists a'; auto|]. destruct a' as [|y a']; cbn in L; [lia|]. cbn in E. injection E as -> E. destruct (IH _ _ _ E) as [c ->]; [lia|]. exists c. auto.
Qed.
Lemma find_eol_spec : forall s, ~ In NUL s -> match find_eol s with
  | Some (p, d) => exists l t r, s = l ++ t ++ r /\ List.length l = p /\ List.length t = d /\ no_eol l /\ forallb eol t = true /\ 1 <= d <= 2
  | None => no_eol s end.
Proof.
  intros s N0. unfold find_eol. rewrite cut0_id by auto.
  pose proof (pos_char_spec CR s) as HC. pose proof (pos_char_spec LF s) as HL. pose proof (pos_crlf_spec s) as HX.
  assert (one : forall c a b, s = a ++ c :: b -> eol c = true -> no_eol a -> exists l t r, s = l ++ t ++ r /\ List.length l = List.length a /\ List.length t = 1 /\ no_eol l /\ forallb eol t = true /\ 1 <= 1 <= 2).
  { intros c a b -> Ec Na. exists a, [c], b. cbn. rewrite Ec. repeat split; auto. }
  assert (sub : forall a b c d : bytes, forall x y, a ++ x :: b = c ++ y :: d -> List.length a <= List.length c -> ~ In y c -> x <> y \/ True -> forall z, In z a -> In z c).
  { intros a b c d x y E L _ _ z Hz. destruct (split_at _ _ _ _ _ E L) as [e ->]. apply in_or_app. auto. }
  destruct (pos_char CR s) as [p1|], (pos_char LF s) as [p2|].
  - destruct HC as (a & b & Ea & La & Na), HL as (c & d & Ec & Lc & Nc).
    assert (M : let first := if p1 <? p2 then p1 else p2 in exists l t r, s = l ++ t ++ r /\ List.length l = first /\ List.length t = 1 /\ no_eol l /\ forallb eol t = true /\ 1 <= 1 <= 2).
    { cbv zeta. destruct (Nat.ltb_spec p1 p2).
      - rewrite <- La. eapply one; eauto. apply not_in_eol; auto. intro X. apply Nc. rewrite Ea in Ec. eapply (sub a b c d CR LF); eauto. lia.
      - rewrite <- Lc. eapply one; eauto. apply not_in_eol; auto. intro X. apply Na. rewrite Ea in Ec. eapply (sub c d a b LF CR); eauto. lia. }
    cbv zeta in M. destruct (pos_crlf s) as [p|]; [|exact M].
    destruct (HX p eq_refl) as (e & f & Ee & Le). destruct ((if p1 <? p2 then p1 else p2) <? p) eqn:F; [exact M|]. apply Nat.ltb_ge in F.
    exists e, [CR; LF], f. cbn [app]. split; auto. split; auto. split; auto. split; [|split; [reflexivity|lia]]. apply not_in_eol.
    + intro X. apply Na. rewrite Ee in Ea. eapply (sub e _ a b CR CR); eauto. destruct (Nat.ltb_spec p1 p2); lia.
    + intro X. apply Nc. rewrite Ee in Ec. eapply (sub e _ c d CR LF); eauto. destruct (Nat.ltb_spec p1 p2); lia.
  - destruct HC as (a & b & Ea & La & Na). destruct (pos_crlf s) as [p|].
    + destruct (HX p eq_refl) as (e & f & Ee & Le). exfalso. apply HL. rewrite Ee. apply in_or_app. right. right. left. auto.
    + rewrite <- La. eapply one; eauto. apply not_in_eol; auto. intro X. apply HL. rewrite Ea. apply in_or_app. auto.
  - destruct HL as (c & d & Ec & Lc & Nc). destruct (pos_crlf s) as [p|].
    + destruct (HX p eq_refl) as (e & f & Ee & Le). exfalso. apply HC. rewrite Ee. apply in_or_app. right. left. auto.
    + rewrite <- Lc. eapply one; eauto. apply not_in_eol; auto. intro X. apply HC. rewrite Ec. apply in_or_app. auto.
  - destruct (pos_crlf s) as [p|].
    + destruct (HX p eq_refl) as (e & f & Ee & Le). exfalso. apply HC. rewrite Ee. apply in_or_app. right. left. auto.
    + apply not_in_eol; auto.
Qed.

(** ---- the read buffer ---- *)
Definition sb (c c' : conn) : Prop := co_rbuf c' = co_rbuf c /\ (co_delaytime c <= co_delaytime c')%Z.
Lemma penalty_grows : forall m t old n, (0 <= n)%Z -> (old <= penalty m t old n)%Z.
Proof. intros m t old n H. unfold penalty. cbv zeta. destruct ((0 <=? m) && (m <? n) && (n <? 10))%Z eqn:E; [|lia]. rewrite !andb_true_iff in E. destruct E as [[E _] _]. apply Z.leb_le in E. lia. Qed.
#[export] Instance sb_quiet : Quiet sb.
Proof.
  split; unfold sb; intros; cbn [co_rbuf co_delaytime set_co_delaytime set_co_closing set_co_open]; try (split; [reflexivity|lia]).
  - destruct H, H0. split; [congruence|lia].
  - destruct H. split; [congruence|lia].
  - split; [reflexivity|apply penalty_grows; auto].
  - destruct H. split; [congruence|lia].
Qed.
(** a penalty time of the connection lies in the future (if it is still there) *)
Definition held (i : connid) (s : state) : Prop := forall c, assoc i (s_conns s) = Some c -> (s_now s < co_delaytime c)%Z.
Lemma by_held : forall i s s', byR sb s s' -> held i s -> held i s'.
Proof. intros i s s' [T BR] H c Hc. destruct (BR _ _ Hc) as (c0 & H0 & _ & H1). specialize (H _ H0). lia. Qed.
Lemma traced_trans : forall i l1 b1 s s1, traced i l1 b1 s s1 -> forall l2 b2 s', traced i l2 b2 s1 s' -> traced i (l1 ++ l2) (b1 && b2) s s'.
Proof.
  intros i l1 b1 s s1 H. induction H; intros l2 b2 t K; cbn [app andb]; auto.
  - eapply T_chore; eauto.
  - rewrite <- andb_assoc. eapply T_line; eauto.
  - eapply T_other; eauto.
Qed.
(** a part of the server's work: what it does to the stream received on [i] *)
Definition fed (i : connid) (inp : bytes) (s s' : state) (ls : list bytes) (ok : bool) : Prop :=
  wf s' /\ traced i ls ok s s' /\ (held i s -> ls = [] /\ held i s') /\
  (ok = true -> forall cn', assoc i (s_conns s') = Some cn' -> exists cn, assoc i (s_conns s) = Some cn /\
    (~ In NUL (co_rbuf cn ++ inp) -> (lines_of (co_rbuf cn ++ inp) = ls ++ lines_of (co_rbuf cn') /\ rest_of (co_rbuf cn ++ inp) = rest_of (co_rbuf cn')) /\ ~ In NUL (co_rbuf cn'))).
Definition feeds (i : connid) (inp : bytes) (s s' : state) : Prop := wf s -> exists ls ok, fed i inp s s' ls ok.
Lemma fed_refl : forall i s, wf s -> fed i [] s s [] true.
Proof. intros i s W. split; auto. split; [constructor|]. split; [auto|]. intros _ cn' H. exists cn'. rewrite app_nil_r. auto. Qed.
Lemma fed_trans : forall i inp s s1 s' l1 b1 l2 b2, fed i inp s s1 l1 b1 -> fed i [] s1 s' l2 b2 -> fed i inp s s' (l1 ++ l2) (b1 && b2).
Proof.
  intros i inp s s1 s' l1 b1 l2 b2 (W1 & T1 & D1 & F1) (W2 & T2 & D2 & F2). split; auto. split; [eapply traced_trans; eauto|]. split.
  { intro D. destruct (D1 D) as [-> D']. destruct (D2 D') as [-> ?]. auto. }
  intros E cn' H. apply andb_true_iff in E. destruct E as [-> ->]. destruct (F2 eq_refl _ H) as (c1 & H1 & G1). destruct (F1 eq_refl _ H1) as (c & H0 & G0).
  exists c. split; auto. intro N. destruct (G0 N) as [[E0 R0] N0]. rewrite app_nil_r in G1. destruct (G1 N0) as [[E1 R1] N1]. split; auto. split; [rewrite E0, E1, app_assoc; auto|congruence].
Qed.
Lemma feeds_trans : forall i inp s s1 s', feeds i inp s s1 -> feeds i [] s1 s' -> feeds i inp s s'.
Proof. intros i inp s s1 s' H1 H2 W. destruct (H1 W) as (l1 & b1 & F1). destruct (H2 (proj1 F1)) as (l2 & b2 & F2). exists (l1 ++ l2), (b1 && b2). eapply fed_trans; eauto. Qed.
#[local] Instance feeds_po : forall i, PreOrder (feeds i []).
Proof. intro i. split; [intros s W; exists [], true; apply fed_refl; auto|]. intros a b c. apply feeds_trans. Qed.
Lemma by_fed : forall i s s' ok, byR sb s s' -> wf s' -> traced i [] ok s s' -> fed i [] s s' [] ok.
Proof.
  intros i s s' ok BR W T. split; auto. split; auto. split; [intro D; split; auto; eapply by_held; eauto|]. intros E cn' H. destruct (proj2 BR _ _ H) as (cn & H1 & H2 & _). exists cn. split; auto. rewrite app_nil_r. rewrite <- H2. auto.
Qed.
Lemma chore_one : forall i s s', chore s s' -> traced i [] true s s'.
Proof. intros i s s' H. eapply T_chore; eauto. constructor. Qed.
Lemma wr_by : forall s s', wr s s' -> byR sb s s'.
Proof. intros s s' H. apply (byR_wr s s' H). split; auto. intros i c' Hc. exists c'. split; auto. split; [reflexivity|lia]. Qed.
Lemma wr_wf : forall s s', wr s s' -> wf s -> wf s'.
Proof. intros s s' H. assert (K : pres wf s s') by (eapply wr_incl; eauto; exact _). exact K. Qed.
Lemma f_close : forall i j a b c, rel (feeds i []) (Conn_Close j a b c).
Proof. intros i j a b c s [] s' H W. destruct (Conn_Close_by sb _ _ _ _ _ _ _ H W) as [W' BR]. exists [], true. apply by_fed; auto. apply chore_one. eapply A_close; eauto. Qed.
Lemma f_thr : forall i j h, rel (feeds i []) (Throttle_Connection j h).
Proof.
  intros i j h s [] s' H W. assert (Wr : wr s s'). { revert H. apply (fun X => X s tt s'). change (rel wr (Throttle_Connection j h)). unfold Throttle_Connection. rel_auto. }
  exists [], true. apply by_fed; auto; [apply wr_by; auto|eapply wr_wf; eauto|apply chore_one; eapply A_throttle; eauto].
Qed.
Lemma f_ping : forall i j, rel (feeds i []) (Conn_WriteStr j "PING :%s" [aID This_Server]).
Proof.
  intros i j s b s' H W. assert (Wr : wr s s'). { revert H. apply (fun X => X s b s'). change (rel wr (Conn_WriteStr j "PING :%s" [aID This_Server])). rel_auto. }
  exists [], true. apply by_fed; auto; [apply wr_by; auto|eapply wr_wf; eauto|apply chore_one; eapply A_ping; eauto].
Qed.
Lemma f_expire : forall i, rel (feeds i []) Class_Expire.
Proof.
  intros i s [] s' H W. assert (K : rel (also wf (byR sb s)) Class_Expire) by rel_auto. destruct (K _ _ _ H W) as [W' BR].
  exists [], true. apply by_fed; auto; [apply BR; split; auto; intros k c' Hc; exists c'; split; auto; split; [reflexivity|lia]|apply chore_one; apply A_expire; auto].
Qed.
Lemma upd_wf : forall j f s s', upd_con j f s = Ok tt s' -> wf s -> wf s'.
Proof. intros j f s s' H W. apply upd_con_ok in H. subst. destruct W. split; auto. cbn. rewrite aupd_keys. auto. Qed.
Lemma held_upd : forall i j f s s', (forall c, cread c (f c)) -> upd_con j f s = Ok tt s' -> held i s -> held i s'.
Proof.
  intros i j f s s' F U N c' H. apply upd_con_ok in U. subst s'. cbn [s_conns set_s_conns s_now] in *. rewrite assoc_aupd in H. destruct (Nat.eqb j i); [|auto].
  destruct (assoc i (s_conns s)) as [c|] eqn:E; [|discriminate]. cbn in H. inversion H; subst c'. destruct (F c) as []. specialize (N _ E). congruence.
Qed.
Lemma f_upd : forall i j f, (forall c, cread c (f c)) -> (j <> i \/ forall c, co_rbuf (f c) = co_rbuf c) -> rel (feeds i []) (upd_con j f).
Proof.
  intros i j f F N s [] s' H W. pose proof (upd_wf _ _ _ _ H W) as W'. exists [], true. split; auto. split.
  - apply chore_one. eapply (A_conn j f); eauto. intro c. destruct (F c); auto.
  - split; [intro D; split; auto; eapply held_upd; eauto|]. intros _ cn' Hc. apply upd_con_ok in H. subst s'. cbn [s_conns set_s_conns] in Hc. rewrite assoc_aupd in Hc. rewrite app_nil_r || idtac. destruct (Nat.eqb_spec j i).
    + subst j. destruct N as [N|N]; [contradiction|]. destruct (assoc i (s_conns s)) as [c|] eqn:E; [|discriminate]. cbn in Hc. inversion Hc; subst cn'. exists c. split; auto. rewrite app_nil_r, N. auto.
    + exists cn'. split; auto. rewrite app_nil_r. auto.
Qed.
Lemma f_line_other : forall i j t, j <> i -> forall s b s', no_penalty j s -> Parse_Request j t s = Ok b s' -> feeds i [] s s'.
Proof.
  intros i j t N s b s' NP H W. destruct (Parse_Request_by sb _ _ _ _ _ _ H W) as [W' BR]. exists [], true. apply by_fed; auto. eapply T_other; eauto. constructor.
Qed.

(** ---- handling the read buffer ---- *)
Definition good_line (l : bytes) : Prop := l <> [] /\ no_eol l /\ List.length l < 512.
Lemma cut0_prefix : forall s, exists r, s = cut0 s ++ r.
Proof. induction s as [|a s [r E]]; cbn [cut0]; [exists []; auto|]. destruct (Ascii.eqb a NUL); [exists (a :: s); auto|]. exists r. cbn. congruence. Qed.
Lemma cut0_nonul : forall s, ~ In NUL (cut0 s).
Proof.
  induction s as [|a s IH]; cbn [cut0]; auto. destruct (Ascii.eqb a NUL) eqn:E; auto. intros [H|H]; auto. subst. apply Ascii.eqb_neq in E. congruence.
Qed.
Lemma cut0_idem : forall s, cut0 (cut0 s) = cut0 s.
Proof. intro s. apply cut0_id, cut0_nonul. Qed.
Lemma find_eol_some : forall s p d, find_eol s = Some (p, d) -> exists l t r, s = l ++ t ++ r /\ List.length l = p /\ List.length t = d /\ no_eol l /\ forallb eol t = true /\ 1 <= d <= 2.
Proof.
  intros s p d H. assert (E : find_eol (cut0 s) = Some (p, d)) by (unfold find_eol in *; rewrite cut0_idem; exact H).
  pose proof (find_eol_spec (cut0 s) (cut0_nonul s)) as K. rewrite E in K. destruct K as (l & t & r & E1 & K). destruct (cut0_prefix s) as [q E2]. exists l, t, (r ++ q). split; [|exact K].
  rewrite E2, E1 at 1. rewrite <- !app_assoc. reflexivity.
Qed.
Lemma cread_rbuf : forall n c, cread c (set_co_rbuf (skipn n (co_rbuf c)) c).
Proof. intros. split; reflexivity. Qed.
Lemma cread_msg : forall c, cread c (set_co_msg_in (co_msg_in c + 1) c).
Proof. intros. split; reflexivity. Qed.
Lemma chore_upd : forall i f s s', (forall c, cread c (f c)) -> upd_con i f s = Ok tt s' -> chore s s'.
Proof. intros i f s s' F H. eapply (A_conn i f); eauto. intro c. destruct (F c); auto. Qed.
Lemma upd_by : forall i f s s', (forall c, sb c (f c)) -> upd_con i f s = Ok tt s' -> byR sb s s'.
Proof.
  intros i f s s' F H. apply upd_con_ok in H. subst s'. split; [reflexivity|]. intros j c' Hc. cbn [s_conns set_s_conns] in Hc. rewrite assoc_aupd in Hc. destruct (Nat.eqb i j).
  - destruct (assoc j (s_conns s)) as [c|]; [|discriminate]. cbn in Hc. inversion Hc; subst. exists c. split; auto.
  - exists c'. split; auto. split; [reflexivity|lia].
Qed.
Lemma no_penalty_upd : forall j f s s', (forall c, cread c (f c)) -> upd_con j f s = Ok tt s' -> no_penalty j s -> no_penalty j s'.
Proof.
  intros j f s s' F U N c' H. apply upd_con_ok in U. subst s'. cbn [s_conns set_s_conns s_now] in *. rewrite assoc_aupd, Nat.eqb_refl in H. destruct (assoc j (s_conns s)) as [c|] eqn:E; [|discriminate]. cbn in H. inversion H; subst c'.
  destruct (F c) as []. specialize (N _ E). congruence.
Qed.
Lemma rel_use : forall A X (m : M A) s r s', rel X m -> m s = Ok r s' -> X s s'.
Proof. intros A X m s r s' R H. exact (R _ _ _ H). Qed.
Lemma byR_trans : forall R, Quiet R -> forall s s1 s', byR R s s1 -> byR R s1 s' -> byR R s s'.
Proof. intros R Q s s1 s' [T1 H1] [T2 H2]. split; [congruence|]. intros i c' H. destruct (H2 _ _ H) as (c1 & H3 & H4). destruct (H1 _ _ H3) as (c & H5 & H6). exists c. split; auto. eapply q_trans; eauto. Qed.

Lemma no_eol_split : forall l l' t t' r r', l ++ t :: r = l' ++ t' :: r' -> no_eol l -> no_eol l' -> eol t = true -> eol t' = true -> l = l'.
Proof.
  unfold no_eol. induction l as [|a l IH]; intros [|b l'] t t' r r' E N N' T T'; auto; cbn [app] in E; inversion E; subst.
  - cbn [forallb] in N'. apply andb_true_iff in N'. destruct N' as [N' _]. rewrite T in N'. discriminate.
  - cbn [forallb] in N. apply andb_true_iff in N. destruct N as [N _]. rewrite T' in N. discriminate.
  - cbn [forallb] in N, N'. apply andb_true_iff in N, N'. f_equal. eapply IH; eauto; tauto.
Qed.
Lemma cut0_cat : forall l r, ~ In NUL l -> cut0 (l ++ r) = l ++ cut0 r.
Proof.
  induction l as [|a l IH]; intros r N; cbn [app]; auto. cbn [cut0]. destruct (Ascii.eqb a NUL) eqn:E. { apply Ascii.eqb_eq in E. subst. exfalso. apply N. left. auto. }
  rewrite IH; auto. intro X. apply N. right. auto.
Qed.
Lemma eol_not_nul : forall t, eol t = true -> Ascii.eqb t NUL = false.
Proof. intros t H. destruct (Ascii.eqb t NUL) eqn:E; auto. apply Ascii.eqb_eq in E. subst. discriminate H. Qed.
Lemma find_eol_first : forall l t r, no_eol l -> ~ In NUL l -> eol t = true -> exists d, find_eol (l ++ t :: r) = Some (List.length l, d) /\ 1 <= d <= 2.
Proof.
  intros l t r N Z T. set (s := l ++ t :: r). assert (E : find_eol (cut0 s) = find_eol s) by (unfold find_eol; rewrite cut0_idem; auto). rewrite <- E.
  pose proof (find_eol_spec (cut0 s) (cut0_nonul s)) as K. assert (C : cut0 s = l ++ t :: cut0 r). { unfold s. rewrite cut0_cat by auto. cbn [cut0]. rewrite eol_not_nul; auto. }
  destruct (find_eol (cut0 s)) as [[p d]|].
  - destruct K as (l' & t' & r' & E1 & Lp & Lt & Nl & Tl & D). destruct t' as [|x t']; cbn in Lt; [lia|]. cbn [forallb] in Tl. apply andb_true_iff in Tl. destruct Tl as [Tx _].
    rewrite C in E1. cbn [app] in E1. assert (l = l') by (eapply (no_eol_split l l' t x); eauto). subst l'. exists d. split; auto. rewrite Lp. auto.
  - exfalso. rewrite C in K. unfold no_eol in K. rewrite forallb_app in K. apply andb_true_iff in K. destruct K as [_ K]. cbn [forallb] in K. rewrite T in K. discriminate.
Qed.
Lemma handle_lines_fed : forall n i done s r s', handle_lines n i done s = Ok r s' -> wf s -> exists ls ok, fed i [] s s' ls ok /\ List.length ls <= n /\ Forall good_line ls /\
  (forall l, waiting i [] l s -> n <> 0 -> exists q, ls = l :: q).
Proof.
  induction n as [|n IH]; intros i done s r s' H W; cbn [handle_lines] in H.
  { apply ret_ok in H. destruct H as [_ ->]. exists [], true. split; [apply fed_refl; auto|]. cbn. split; auto. split; auto. congruence. }
  assert (nil_case : forall s2 (m : option Z), ret m s = Ok r s2 -> (forall l, ~ waiting i [] l s) -> exists ls ok, fed i [] s s2 ls ok /\ List.length ls <= S n /\ Forall good_line ls /\ (forall l, waiting i [] l s -> S n <> 0 -> exists q, ls = l :: q)).
  { intros s2 m E NW. apply ret_ok in E. destruct E as [_ ->]. exists [], true. split; [apply fed_refl; auto|]. cbn. split; [lia|]. split; [constructor|]. intros l X. exfalso. eapply NW; eauto. }
  bd H as c s1 H1. apply con_ok in H1. destruct H1 as [-> Hc]. bd H as t s1 H1. unfold now in H1. rdgets H1.
  destruct (s_now s <? co_delaytime c)%Z eqn:ED.
  { eapply nil_case; eauto. intros l (c0 & t & rr & A1 & A2 & _). apply Z.ltb_lt in ED. destruct Hc as [Hc|[Hc _]]; [|congruence]. rewrite Hc in A1. inversion A1; subst c0. lia. }
  destruct (co_rbuf c) as [|b0 rb] eqn:ER.
  { eapply nil_case; eauto. intros l (c0 & t & rr & A1 & _ & A3 & _). destruct Hc as [Hc|[Hc _]]; [|congruence]. rewrite Hc in A1. inversion A1; subst c0. rewrite ER in A3. destruct l; discriminate A3. }
  destruct Hc as [Hc|[_ ->]]; [|discriminate ER].
  assert (NP : no_penalty i s). { intros c0 H0. rewrite Hc in H0. inversion H0; subst c0. apply Z.ltb_ge in ED. exact ED. }
  assert (WT : forall l, waiting i [] l s -> exists d, find_eol (b0 :: rb) = Some (List.length l, d) /\ 1 <= d <= 2 /\ l <> [] /\ List.length l <= 510 /\ firstn (List.length l) (b0 :: rb) = l).
  { intros l (c0 & t & rr & A1 & A2 & A3 & A4 & A5 & A6 & A7 & A8). rewrite Hc in A1. inversion A1; subst c0. rewrite app_nil_r, ER in A3.
    destruct (find_eol_first l t rr A6 A7 A4) as (d & Fd & D). exists d. rewrite A3. split; auto. split; auto. split; auto. split; auto. apply firstn_split. auto. }
  destruct (find_eol (b0 :: rb)) as [[p d]|] eqn:EF.
  2: { eapply nil_case; eauto. intros l X. destruct (WT _ X) as (d & A1 & _). discriminate. }
  apply find_eol_some in EF. destruct EF as (l & tt' & rest & E & Ll & Lt & Nl & Et & D).
  destruct (512 <? p + d) eqn:EL.
  { bd H as u s1 H1. apply ret_ok in H. destruct H as [_ ->]. destruct u. destruct (f_close i i _ _ _ _ _ _ H1 W) as (ls & ok & F).
    destruct (Conn_Close_by sb _ _ _ _ _ _ _ H1 W) as [W' BR]. exists [], true. split; [apply by_fed; auto; apply chore_one; eapply A_close; eauto|]. cbn. split; [lia|]. split; [constructor|].
    intros l0 X. destruct (WT _ X) as (d0 & A1 & A2 & A3 & A4 & _). apply Nat.ltb_lt in EL. assert (p = List.length l0 /\ d = d0) by (inversion A1; auto). lia. }
  apply Nat.ltb_ge in EL.
  assert (sk : forall s2 s3 s4 ls0, byR sb s s2 -> traced i ls0 true s s2 -> wf s2 -> ls0 = match l with [] => [] | _ => [l] end ->
     upd_con i (fun c => set_co_rbuf (skipn (p + d) (co_rbuf c)) c) s2 = Ok tt s3 -> s3 = s4 -> fed i [] s s4 ls0 true).
  { intros s2 s3 s4 ls0 BR T W2 L0 U <-. split; [eapply upd_wf; eauto|]. split.
    - rewrite <- (app_nil_r ls0). change true with (true && true)%bool. eapply traced_trans; eauto. apply chore_one. eapply chore_upd; eauto. intro; apply cread_rbuf.
    - split; [intro HD; exfalso; specialize (HD _ Hc); specialize (NP _ Hc); lia|]. intros _ cn' Hn. exists c. split; auto. apply upd_con_ok in U. subst s3. cbn [s_conns set_s_conns] in Hn. rewrite assoc_aupd in Hn. rewrite Nat.eqb_refl in Hn.
      destruct (assoc i (s_conns s2)) as [c2|] eqn:E2; [|discriminate]. cbn in Hn. inversion Hn; subst cn'. destruct (proj2 BR _ _ E2) as (c0 & H0 & HS & _). rewrite Hc in H0. inversion H0; subst c0.
      cbn [co_rbuf set_co_rbuf]. rewrite HS, ER, app_nil_r. intro N.
      assert (SK : skipn (p + d) (b0 :: rb) = rest). { rewrite E, app_assoc. apply firstn_split. rewrite app_length. lia. }
      rewrite SK. split.
      + rewrite E. split; [rewrite lines_step; auto; [rewrite L0; auto|]; destruct tt'; cbn in Lt; [lia|discriminate]|]. apply rest_step; auto. destruct tt'; cbn in Lt; [lia|discriminate].
      + intro X. apply N. rewrite E. apply in_or_app. right. apply in_or_app. auto. }
  destruct (p + d <=? d) eqn:EP.
  - apply Nat.leb_le in EP. assert (l = []) by (destruct l; cbn in Ll; [auto|lia]). subst l.
    bd H as u s1 H1. destruct u.
    assert (F1 : fed i [] s s1 [] true). { eapply (sk s s1 s1 []); eauto; [split; auto; intros k c' Hk; exists c'; split; auto; split; [reflexivity|lia]|constructor]. }
    destruct (IH _ _ _ _ _ H (proj1 F1)) as (ls & ok & F2 & L2 & G2 & _). exists ([] ++ ls), (true && ok)%bool. split; [eapply fed_trans; eauto|]. cbn. split; [lia|]. split; auto.
    intros l0 X. destruct (WT _ X) as (d0 & A1 & A2 & A3 & A4 & _). assert (p = List.length l0 /\ d = d0) by (inversion A1; auto). destruct l0; [congruence|]. cbn in *. lia.
  - apply Nat.leb_gt in EP. assert (NE : l <> []) by (intros ->; cbn in Ll; lia).
    assert (FN : firstn p (b0 :: rb) = l). { rewrite E. apply firstn_split. auto. }
    bd H as u s1 H1. destruct u. bd H as okb s2 H2. rewrite FN in H2.
    assert (W1 : wf s1) by (eapply upd_wf; eauto). destruct (Parse_Request_by sb _ _ _ _ _ _ H2 W1) as [W2 BR2].
    assert (BR : byR sb s s2). { eapply byR_trans; [exact _| |exact BR2]. eapply upd_by; eauto. intro. split; [reflexivity|cbn; lia]. }
    assert (WL : forall l0, waiting i [] l0 s -> l0 = l). { intros l0 X. destruct (WT _ X) as (d0 & A1 & A2 & A3 & A4 & A5). assert (X1 : p = List.length l0) by (inversion A1; auto). rewrite <- X1, FN in A5. auto. }
    assert (G : good_line l). { split; auto. split; auto. lia. }
    assert (T : traced i [l] okb s s2). { eapply T_chore; [eapply chore_upd; [intro; apply cread_msg|eauto]|]. rewrite <- (andb_true_r okb). eapply T_line; [|eauto|constructor]. eapply no_penalty_upd; eauto. intro; apply cread_msg. }
    destruct okb; cbn [negb] in H.
    + bd H as u s3 H3. destruct u.
      assert (F1 : fed i [] s s3 [l] true). { eapply (sk s2 s3 s3 [l]); eauto. destruct l; [contradiction|auto]. }
      destruct (IH _ _ _ _ _ H (proj1 F1)) as (ls & ok & F2 & L2 & G2 & _). exists ([l] ++ ls), (true && ok)%bool. split; [eapply fed_trans; eauto|]. cbn. split; [lia|]. split; [constructor; auto|]. intros l0 X _. rewrite (WL _ X). eauto.
    + apply ret_ok in H. destruct H as [_ ->]. exists [l], false. split; [split; [exact W2|split; [exact T|split; [intro HD; exfalso; specialize (HD _ Hc); specialize (NP _ Hc); lia|discriminate]]]|cbn; split; [lia|split; [constructor; auto|intros l0 X _; rewrite (WL _ X); eauto]]].
Qed.

(** one pass over the read buffer *)
Definition pass (i : connid) (inp : bytes) (n : nat) (s s' : state) : Prop := exists ls ok, fed i inp s s' ls ok /\ List.length ls <= n /\ Forall good_line ls /\
  (forall l, waiting i inp l s -> n <> 0 -> exists q, ls = l :: q).
Lemma mcount_nonneg : forall A (f : A -> M bool) l s n s', mcount f l s = Ok n s' -> (0 <= n)%Z.
Proof.
  induction l as [|a l IH]; intros s n s' H; cbn [mcount] in H. { apply ret_ok in H. destruct H as [-> _]. lia. }
  bd H as b s1 H1. bd H as k s2 H2. apply IH in H2. apply ret_ok in H. destruct H as [-> _]. destruct b; lia.
Qed.
Lemma Count_nonneg : forall t s n s', Count t s = Ok n s' -> (0 <= n)%Z.
Proof. intros t s n s' H. unfold Count in H. bd H as l s1 H1. eapply mcount_nonneg; eauto. Qed.
(** the number of commands executed at most in one pass: src/ngircd/conn.c:1745-1764 *)
Lemma max_commands_ok : forall i h s n s', max_commands i h s = Ok n s' -> s' = s /\ exists c, assoc h (s_heap s) = Some c /\
  (cl_type c <> T_SERVER -> n = if ctype_eqb (cl_type c) T_SERVICE || (ctype_eqb (cl_type c) T_USER && memb "F" (cl_modes c)) then 10 else 3) /\ 1 <= n.
Proof.
  intros i h s n s' H. unfold max_commands in H. bd H as c s1 H1. apply cli_ok in H1. destruct H1 as [Hc ->].
  destruct (cl_type c) eqn:ET; try (apply ret_ok in H; destruct H as [-> ->]; split; auto; exists c; split; auto; rewrite ET; cbn; try destruct (memb "F" (cl_modes c)); (split; [intros _; reflexivity|lia])).
  bd H as x s1 H1. pose proof (Count_nonneg _ _ _ _ H1) as NN. apply Count_ok in H1. subst s1.
  bd H as lp s1 H2. unfold Conn_LastPing in H2. bd H2 as cc s2 H3. apply con_ok in H3. destruct H3 as [-> _]. rdret H2.
  apply ret_ok in H. destruct H as [-> ->]. split; auto. exists c. split; auto. split; [intro N; congruence|].
  pose proof (Z.div_pos x 5 NN ltac:(lia)). assert (1 <= Z.to_nat (x / 5 + 10)) by lia. match goal with |- context [if ?b then _ else _] => destruct b end; lia.
Qed.

Lemma fed_thr : forall i h s s', Throttle_Connection i h s = Ok tt s' -> wf s -> forall k, fed k [] s s' [] true.
Proof.
  intros i h s s' H W k. assert (Wr : wr s s'). { revert H. apply (fun X => X s tt s'). change (rel wr (Throttle_Connection i h)). unfold Throttle_Connection. rel_auto. }
  apply by_fed; auto; [apply wr_by; auto|eapply wr_wf; eauto|apply chore_one; eapply A_throttle; eauto].
Qed.
Lemma fed_upd : forall i j f s s', (forall c, cread c (f c)) -> (forall c, co_rbuf (f c) = co_rbuf c) -> upd_con j f s = Ok tt s' -> wf s -> fed i [] s s' [] true.
Proof.
  intros i j f s s' F N H W. apply by_fed; auto; [eapply upd_by; eauto; intro c; split; [apply N|destruct (F c); lia]|eapply upd_wf; eauto|apply chore_one; eapply chore_upd; eauto].
Qed.
Lemma pass_fed : forall i inp n s s1 s', pass i inp n s s1 -> (wf s1 -> fed i [] s1 s' [] true) -> pass i inp n s s'.
Proof.
  intros i inp n s s1 s' (ls & ok & F & L & G & X) K. exists ls, ok. split; auto. pose proof (fed_trans _ _ _ _ _ _ _ _ _ F (K (proj1 F))) as T. rewrite app_nil_r, andb_true_r in T. exact T.
Qed.
Lemma fed_pass : forall i inp n s s1 s', fed i inp s s1 [] true -> (forall l, waiting i inp l s -> waiting i [] l s1) -> (wf s1 -> pass i [] n s1 s') -> pass i inp n s s'.
Proof. intros i inp n s s1 s' F WT K. destruct (K (proj1 F)) as (ls & ok & F2 & L & G & X). exists ls, ok. split; auto. exact (fed_trans _ _ _ _ _ _ _ _ _ F F2). Qed.
(** the limit of a connection *)
Definition limit_of (i : connid) (s : state) (n : nat) : Prop :=
  exists cn h c, assoc i (s_conns s) = Some cn /\ co_client cn = Some h /\ assoc h (s_heap s) = Some c /\
  (cl_type c <> T_SERVER -> n = if ctype_eqb (cl_type c) T_SERVICE || (ctype_eqb (cl_type c) T_USER && memb "F" (cl_modes c)) then 10 else 3) /\ 1 <= n.
Lemma Handle_Buffer_pass : forall i s n s', Handle_Buffer i s = Ok n s' -> wf s -> exists m, limit_of i s m /\ pass i [] m s s'.
Proof.
  intros i s n s' H W. unfold Handle_Buffer in H. bd H as o s1 H1. unfold Conn_GetClient in H1. bd H1 as cn s2 H2. apply con_ok in H2. destruct H2 as [-> Hcn]. rdret H1.
  bd H as h s1 H1. apply nonnull_ok in H1. destruct H1 as [Eh ->]. destruct Hcn as [Hcn|[_ ->]]; [|discriminate Eh].
  bd H as m s1 H1. apply max_commands_ok in H1. destruct H1 as (-> & c & Hc & Em & M1). exists m. split. { exists cn, h, c. auto. }
  bd H as r s1 H1. apply handle_lines_fed in H1; auto. destruct r as [done|].
  - bd H as c1 s2 H2. apply con_ok in H2. destruct H2 as [-> _]. bd H as u s2 H2. apply ret_ok in H. destruct H as [_ ->]. destruct u.
    match type of H2 with whenM ?b _ _ = _ => destruct b end; cbn [whenM] in H2.
    + eapply pass_fed; [exact H1|]. intro W1. eapply fed_thr; eauto.
    + apply ret_ok in H2. destruct H2 as [_ ->]. exact H1.
  - apply ret_ok in H. destruct H as [_ ->]. exact H1.
Qed.
Lemma Read_Data_pass2 : forall i data s s' cn, Read_Data i data s = Ok tt s' -> wf s -> assoc i (s_conns s) = Some cn -> List.length (co_rbuf cn) < READBUFFER_LEN ->
  data <> [] -> exists m, limit_of i s m /\ pass i data m s s'.
Proof.
  intros i data s s' cn H W Hcn Len ND. unfold Read_Data in H. bd H as cn1 s1 H1. apply con_ok in H1. destruct H1 as [-> [Hc|[Hc _]]]; [|congruence].
  rewrite Hcn in Hc. inversion Hc; subst cn1. clear Hc. bd H as u s1 H1. apply assertM_ok in H1. destruct H1 as [Ho ->].
  destruct (Nat.leb_spec READBUFFER_LEN (List.length (co_rbuf cn))); [lia|].
  destruct data as [|d0 data]; [contradiction|].
  set (inp := d0 :: data) in *. bd H as u1 s1 H1. destruct u1. bd H as n s2 H2.
  assert (F1 : fed i inp s s1 [] true).
  { split; [eapply upd_wf; eauto|]. split; [apply chore_one; eapply chore_upd; [|eauto]; intro; split; reflexivity|]. split; [intro D; split; auto; eapply held_upd; [|exact H1|exact D]; intro; split; reflexivity|].
    intros _ cn' Hn. exists cn. split; auto. apply upd_con_ok in H1. subst s1. cbn [s_conns set_s_conns] in Hn. rewrite assoc_aupd, Nat.eqb_refl, Hcn in Hn. cbn in Hn. inversion Hn; subst cn'. cbn [co_rbuf set_co_rbuf set_co_bytes_in]. auto. }
  pose proof (proj1 F1) as W1. destruct (Handle_Buffer_pass _ _ _ _ H2 W1) as (m & (c1 & h & c & A1 & A2 & A3 & A4 & A5) & P2).
  exists m. split.
  { apply upd_con_ok in H1. subst s1. cbn [s_conns set_s_conns] in A1. rewrite assoc_aupd, Nat.eqb_refl, Hcn in A1. cbn in A1. inversion A1; subst c1. exists cn, h, c. auto. }
  eapply fed_pass; [exact F1| |intros _].
  { intros l (c0 & t & r & B1 & B2 & B3 & B4). rewrite Hcn in B1. inversion B1; subst c0. apply upd_con_ok in H1. subst s1. eexists. exists t, r. cbn [s_conns set_s_conns s_now]. rewrite assoc_aupd, Nat.eqb_refl, Hcn. cbn [option_map]. split; [reflexivity|].
    cbn [co_delaytime co_rbuf set_co_rbuf set_co_bytes_in]. rewrite app_nil_r. auto. }
  bd H as u3 s3 H3. destruct u3. eapply pass_fed; [eapply pass_fed; [exact P2|]|].
  { intro W2. eapply fed_upd; [| |exact H3|exact W2]; intro; [split; reflexivity|reflexivity]. }
  intro W3. clear - H W3. bd H as o s1 H1. unfold Conn_GetClient in H1. bd H1 as cn s2 H2. apply con_ok in H2. destruct H2 as [-> Hcn]. rdret H1.
  destruct (co_client cn) as [h|]; [|apply ret_ok in H; destruct H as [_ ->]; apply fed_refl; auto].
  bd H as ty s1 H1. apply Client_Type_ok in H1. destruct H1 as (-> & _). bd H as t s1 H1. unfold now in H1. rdgets H1. bd H as u s1 H1. destruct u.
  assert (F : fed i [] s3 s1 [] true).
  { destruct (is_registered ty); cbn [whenM] in H1; [|apply ret_ok in H1; destruct H1 as [_ ->]; apply fed_refl; auto].
    eapply fed_upd; [| |exact H1|exact W3]; intro c; cbv beta; destruct (negb (co_lastdata c =? s_now s3)%Z); try reflexivity; split; reflexivity. }
  bd H as c s2 H2. apply con_ok in H2. destruct H2 as [-> _]. destruct (256 <=? co_bps c)%Z; cbn [whenM] in H; [|apply ret_ok in H; destruct H as [_ ->]; exact F].
  change (@nil bytes) with (@nil bytes ++ [])%list. change true with (true && true)%bool. eapply fed_trans; [exact F|]. eapply fed_thr; eauto. apply F.
Qed.

Lemma Read_Data_pass : forall i data s s' cn, Read_Data i data s = Ok tt s' -> wf s -> assoc i (s_conns s) = Some cn -> List.length (co_rbuf cn) < READBUFFER_LEN ->
  (exists m, limit_of i s m /\ pass i data m s s') \/ pass i data 0 s s'.
Proof.
  intros i data s s' cn H W Hcn Len. destruct data as [|d0 data]; [|left; eapply Read_Data_pass2; eauto; discriminate].
  unfold Read_Data in H. bd H as cn1 s1 H1. apply con_ok in H1. destruct H1 as [-> [Hc|[Hc _]]]; [|congruence].
  rewrite Hcn in Hc. inversion Hc; subst cn1. clear Hc. bd H as u s1 H1. apply assertM_ok in H1. destruct H1 as [Ho ->].
  destruct (Nat.leb_spec READBUFFER_LEN (List.length (co_rbuf cn))); [lia|].
  right. destruct (Conn_Close_by sb _ _ _ _ _ _ _ H W) as [W' BR]. exists [], true. split; [|cbn; split; [lia|split; [constructor|congruence]]]. apply by_fed; auto. apply chore_one. eapply A_close; eauto.
Qed.

(** ---- the main loop ---- *)
Section Loop.
Variable i : connid.
#[local] Hint Extern 0 (rel (feeds _ []) (Conn_Close _ _ _ _)) => apply f_close : rel.
#[local] Hint Extern 0 (rel (feeds _ []) (Throttle_Connection _ _)) => apply f_thr : rel.
#[local] Hint Extern 0 (rel (feeds _ []) (Conn_WriteStr _ "PING :%s" [aID This_Server])) => apply f_ping : rel.
#[local] Hint Extern 0 (rel (feeds _ []) Class_Expire) => apply f_expire : rel.
#[local] Hint Extern 0 (rel (feeds _ []) (upd_con _ _)) => (apply f_upd; [intro; split; reflexivity|first [left; assumption | right; intro; reflexivity]]) : rel.
Lemma f_read : forall A (m : M A), (forall s a s', m s = Ok a s' -> s' = s) -> rel (feeds i []) m.
Proof. intros A m H s a s' E W. apply H in E. subst. exists [], true. apply fed_refl; auto. Qed.
Lemma f_lines : forall n j done, j <> i -> rel (feeds i []) (handle_lines n j done).
Proof.
  induction n; intros j done N; cbn [handle_lines]; [apply rel_ret|]. intros s r s' H.
  bd H as c s1 H1. apply con_ok in H1. destruct H1 as [-> Hc]. bd H as t s1 H1. unfold now in H1. rdgets H1.
  destruct (s_now s <? co_delaytime c)%Z eqn:ED. { rdret H. reflexivity. }
  assert (NP : no_penalty j s). { intros c0 H0. destruct Hc as [Hc|[Hc _]]; [|congruence]. rewrite Hc in H0. inversion H0; subst c0. apply Z.ltb_ge in ED. exact ED. }
  destruct (co_rbuf c); [rdret H; reflexivity|]. destruct (find_eol _) as [[p d]|]; [|rdret H; reflexivity].
  destruct (512 <? p + d). { eapply rel_use; [|exact H]. rel_go. }
  destruct (p + d <=? d). { eapply rel_use; [|exact H]. rel_go. }
  bd H as u s1 H1. destruct u. transitivity s1. { refine (f_upd i j _ _ _ _ _ _ H1); [intro; split; reflexivity|auto]. }
  bd H as okb s2 H2. transitivity s2. { eapply f_line_other; [exact N| |exact H2]. eapply no_penalty_upd; eauto. intro; split; reflexivity. }
  destruct (negb okb); [rdret H; reflexivity|]. eapply rel_use; [|exact H]. rel_go.
Qed.
Lemma f_handle : forall j, rel (feeds i []) (Handle_Buffer j).
Proof.
  intros j s n s' H W. destruct (Nat.eq_dec j i) as [-> |N].
  - destruct (Handle_Buffer_pass _ _ _ _ H W) as (m & _ & ls & ok & F & _). eauto.
  - revert W. change (feeds i [] s s'). revert s n s' H. change (rel (feeds i []) (Handle_Buffer j)). unfold Handle_Buffer.
    assert (L : forall n done, rel (feeds i []) (handle_lines n j done)).
    { intros n done. apply f_lines; auto. }
    assert (MX : forall h, rel (feeds i []) (max_commands j h)). { intro h. apply f_read. intros s a s' H. apply max_commands_ok in H. tauto. }
    rel_go; auto.
Qed.
#[local] Hint Extern 0 (rel (feeds _ []) (Handle_Buffer _)) => apply f_handle : rel.
Lemma f_loop : rel (feeds i []) Main_Loop.
Proof.
  unfold Main_Loop, Check_Connections, Check_Connection. rel_go.
  unfold Conn_UpdatePing. rel_go.
Qed.
Lemma f_data_other : forall j data, j <> i -> rel (feeds i []) (Read_Data j data).
Proof.
  intros j data N. unfold Read_Data. rel_go.
  apply f_upd; [|auto]. intro c. cbv beta. match goal with |- context [if ?b then set_co_bps 0 _ else _] => destruct b end; split; reflexivity.
Qed.
End Loop.

(** ---- events ---- *)
Lemma refl_by : forall R, Quiet R -> forall s, byR R s s.
Proof. intros R Q s. split; auto. intros i c H. exists c. split; auto. apply q_refl. auto. Qed.
(** connections that were there before an event that executes no lines *)
Definition still (R : conn -> conn -> Prop) (s s' : state) : Prop :=
  forall i c c', assoc i (s_conns s) = Some c -> assoc i (s_conns s') = Some c' -> R c c'.
Lemma byR_still : forall R s s', byR R s s' -> still R s s'.
Proof. intros R s s' [_ H] i c c' H1 H2. destruct (H _ _ H2) as (c0 & H3 & H4). congruence. Qed.
Lemma opened_still : forall R, Quiet R -> forall i cn h c a b m acc sv s s', assoc i (s_conns s) = None -> wr (opened i cn h c a b m acc sv s) s' -> still R s s'.
Proof.
  intros R Q i cn h c a b m acc sv s s' N Wr j c0 c' H1 H2.
  assert (K : byR R (opened i cn h c a b m acc sv s) s') by (apply (byR_wr _ _ Wr); apply refl_by; auto).
  destruct (proj2 K _ _ H2) as (c1 & H3 & H4). unfold opened in H3. cbn [s_conns set_s_servers set_s_accepted set_s_numconnmax set_s_numconn set_s_conns] in H3. cbn [assoc] in H3.
  destruct (Nat.eqb_spec j i); [subst; congruence|]. change (assoc j (s_conns s) = Some c1) in H3. congruence.
Qed.
Lemma opens_still : forall R, Quiet R -> forall e s s', opens e = true -> wf s -> step e s = Ok tt s' -> still R s s'.
Proof.
  intros R Q e s s' O W H. destruct (wf_fresh _ W) as [F1 F2]. destruct e; try discriminate O; cbn [step] in H.
  - bd H as u s1 H1. unfold unused in H1. rdgets H1. destruct (assoc i (s_conns s)) eqn:E; cbn [is_some negb whenM] in H. { rdret H. apply byR_still, refl_by; auto. }
    apply New_Connection_ok in H; auto. destruct H as [(msg & -> & _)|(c & a & b & m & x & _ & _ & _ & _ & Wr)]; [apply byR_still; split; auto; intros j c' Hc; exists c'; split; auto; apply q_refl; auto|].
    eapply opened_still; eauto.
  - bd H as u s1 H1. unfold unused in H1. rdgets H1. bd H as k s1 H1. rdgets H1. destruct (assoc i (s_conns s)) eqn:E; cbn [is_some negb andb whenM] in H. { rdret H. apply byR_still, refl_by; auto. }
    match type of H with whenM ?b _ _ = _ => destruct b end; cbn [whenM] in H; [|rdret H; apply byR_still, refl_by; auto].
    apply New_Server_ok in H; auto. destruct H as [-> |(sv & c & a & b & m & _ & _ & _ & ->)]; [apply byR_still, refl_by; auto|]. eapply opened_still; [exact _|exact E|apply HandOper.wr_refl].
Qed.

(** what one event does to the stream of connection [i] *)
Lemma Main_Loop_fed : forall i s s', Main_Loop s = Ok tt s' -> feeds i [] s s'.
Proof. intros i s s' H. exact (f_loop i _ _ _ H). Qed.
#[local] Hint Extern 0 (rel (also wf (byR _ _)) (Conn_Close _ _ _ _)) => apply Conn_Close_rel : rel.
Lemma step_fed : forall i e s s', wf s -> step e s = Ok tt s' ->
  exists ls ok, executed i e ls ok s s' /\ (held i s -> ls = []) /\
  (ok = true -> forall cn cn', assoc i (s_conns s) = Some cn -> assoc i (s_conns s') = Some cn' -> ~ In NUL (co_rbuf cn ++ received i e s) ->
   (lines_of (co_rbuf cn ++ received i e s) = ls ++ lines_of (co_rbuf cn') /\ rest_of (co_rbuf cn ++ received i e s) = rest_of (co_rbuf cn')) /\ ~ In NUL (co_rbuf cn')).
Proof.
  intros i e s s' W H.
  assert (use : forall inp ls ok, inp = received i e s \/ assoc i (s_conns s) = None -> fed i inp s s' ls ok -> (ok = true -> forall cn cn', assoc i (s_conns s) = Some cn -> assoc i (s_conns s') = Some cn' -> ~ In NUL (co_rbuf cn ++ received i e s) ->
   (lines_of (co_rbuf cn ++ received i e s) = ls ++ lines_of (co_rbuf cn') /\ rest_of (co_rbuf cn ++ received i e s) = rest_of (co_rbuf cn')) /\ ~ In NUL (co_rbuf cn'))).
  { intros inp ls ok E (_ & _ & _ & F) Eo cn cn' Hc Hc' N. destruct (F Eo _ Hc') as (c0 & H0 & K). rewrite Hc in H0. inversion H0; subst c0. destruct E as [E|E]; [|congruence]. subst inp. auto. }
  assert (idle : forall R : Prop, (match e with E_Data _ _ | E_Loop => False | _ => True end) -> still sb s s' -> exists ls ok, executed i e ls ok s s' /\ (held i s -> ls = []) /\
    (ok = true -> forall cn cn', assoc i (s_conns s) = Some cn -> assoc i (s_conns s') = Some cn' -> ~ In NUL (co_rbuf cn ++ received i e s) ->
    (lines_of (co_rbuf cn ++ received i e s) = ls ++ lines_of (co_rbuf cn') /\ rest_of (co_rbuf cn ++ received i e s) = rest_of (co_rbuf cn')) /\ ~ In NUL (co_rbuf cn'))).
  { intros _ T S. exists [], true. split; [destruct e; try contradiction; split; reflexivity|]. split; [auto|]. intros _ cn cn' H1 H2. destruct (S _ _ _ H1 H2) as [S' _]. rewrite S'.
    replace (received i e s) with (@nil ascii) by (destruct e; try contradiction; reflexivity). rewrite app_nil_r. auto. }
  destruct (opens e) eqn:O. { apply (idle True). { destruct e; try discriminate O; auto. } eapply opens_still; eauto. exact _. }
  destruct e; try discriminate O.
  1,2,4,5,7: apply (idle True); auto.
  1: { cbn [step] in H. apply modify_ok in H. subst. intros j c c' Hc Hc'. cbn in Hc'. rewrite Hc in Hc'. inversion Hc'. split; [reflexivity|lia]. }
  1,2,3,4: apply byR_still.
  - assert (K : rel (also wf (byR sb s)) (step (E_Resolved i0 host))) by (cbn [step]; unfold is_open; first [rel_auto | solve [rel_go]]). apply (K _ _ _ H W). apply refl_by. exact _.
  - assert (K : rel (also wf (byR sb s)) (step (E_ReadError i0))) by (cbn [step]; first [rel_auto | solve [rel_go]]). apply (K _ _ _ H W). apply refl_by. exact _.
  - assert (K : rel (also wf (byR sb s)) (step (E_WriteError i0))) by (cbn [step]; unfold is_open; first [rel_auto | solve [rel_go]]). apply (K _ _ _ H W). apply refl_by. exact _.
  - assert (K : rel (also wf (byR sb s)) (step (E_ServerUp i0 ok))) by (cbn [step]; first [rel_auto | solve [rel_go]]). apply (K _ _ _ H W). apply refl_by. exact _.
  - cbn [step] in H. bd H as c s1 H1. apply con_ok in H1. destruct H1 as [-> Hc]. bd H as t s1 H1. unfold now in H1. rdgets H1.
    destruct (can_read (s_now s) c && (List.length data <=? READBUFFER_LEN)) eqn:CR; cbn [whenM] in H.
    + pose proof CR as CR'. unfold can_read in CR'. rewrite !andb_true_iff in CR'. destruct CR' as [[[[Co _] _] Cl] _]. apply Nat.ltb_lt in Cl.
      destruct Hc as [Hc|[_ ->]]; [|discriminate Co].
      destruct (Nat.eq_dec i0 i) as [-> |N].
      * assert (P : exists m, pass i data m s s').
        { destruct (Read_Data_pass _ _ _ _ _ H W Hc) as [(m & _ & P)|P]; eauto. unfold COMMAND_LEN, READBUFFER_LEN in *. lia. }
        destruct P as (m & ls & ok & F & _). exists ls, ok. split; [apply F|]. split; [intro D; apply F; auto|]. eapply use; [|exact F]. left. cbn [received]. rewrite Hc, Nat.eqb_refl, CR. reflexivity.
      * destruct (f_data_other _ _ _ N _ _ _ H W) as (ls & ok & F). exists ls, ok. split; [apply F|]. split; [intro D; apply F; auto|]. eapply use; [|exact F]. cbn [received]. destruct (assoc i (s_conns s)); auto.
        apply Nat.eqb_neq in N. rewrite N. auto.
    + rdret H. exists [], true. split; [constructor|]. split; [auto|]. eapply use; [|apply fed_refl; auto]. cbn [received].
      destruct (assoc i (s_conns s)) as [c0|] eqn:E; auto. destruct (Nat.eqb_spec i0 i); auto. subst i0. left.
      destruct Hc as [Hc|[Hc _]]; [|congruence]. rewrite E in Hc. inversion Hc; subst c0. rewrite CR. reflexivity.
  - cbn [step] in H. destruct (f_loop i _ _ _ H W) as (ls & ok & F). exists ls, ok. split; [apply F|]. split; [intro D; apply F; auto|]. eapply use; eauto.
Qed.
(** a whole session *)
Lemma session_lines : forall i inp s s', wf s -> serving i inp s s' -> forall cn, assoc i (s_conns s) = Some cn ->
  exists ls ok, dialogue i inp ls ok s s' /\ wf s' /\ exists cn', assoc i (s_conns s') = Some cn' /\
  (ok = true -> ~ In NUL (co_rbuf cn ++ inp) -> (lines_of (co_rbuf cn ++ inp) = ls ++ lines_of (co_rbuf cn') /\ rest_of (co_rbuf cn ++ inp) = rest_of (co_rbuf cn')) /\ ~ In NUL (co_rbuf cn')).
Proof.
  intros i inp s s' W H. induction H as [s|e inp s s1 s' Hs IH He Hc]; intros cn Hcn.
  { exists [], true. split; [constructor|]. split; auto. exists cn. rewrite app_nil_r. auto. }
  destruct (IH W _ Hcn) as (ls & ok & S1 & W1 & c1 & H1 & K1). destruct (step_fed i e s1 s' W1 He) as (l & b & X & _ & F).
  destruct (assoc i (s_conns s')) as [c'|] eqn:Ec; [|congruence].
  assert (W' : wf s') by exact (step_rel (X := pres wf) e _ _ _ He W1).
  exists (ls ++ l), (ok && b)%bool. split; [eapply S_event; eauto; congruence|]. split; auto. exists c'. split; auto.
  intros Eb N. apply andb_true_iff in Eb. destruct Eb as [-> ->]. rewrite app_assoc in *.
  assert (N1 : ~ In NUL (co_rbuf cn ++ inp)) by (intro Y; apply N, in_or_app; auto).
  destruct (K1 eq_refl N1) as [[L1 R1] M1].
  assert (N2 : ~ In NUL (co_rbuf c1 ++ received i e s1)) by (intro Y; apply in_app_or in Y; destruct Y; [auto|apply N, in_or_app; auto]).
  destruct (F eq_refl _ _ H1 eq_refl N2) as [[L2 R2] M2]. split; auto.
  rewrite lines_of_cat, L1, R1, <- app_assoc, <- lines_of_cat, L2, app_assoc. split; auto. rewrite rest_of_cat, R1, <- rest_of_cat. exact R2.
Qed.
