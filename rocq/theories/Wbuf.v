(** Model of the outbound buffer of a connection: Conn_Write, Handle_Write and the buffer part
    of Conn_Close (src/ngircd/conn.c:949-1167 and 1267-1336), on top of the model of array.c.
    The answers of write(2) and of realloc(3) are inputs.  Built without ZLIB and SSL. *)
From Coq Require Import List Ascii String NArith Lia Bool Arith.
From Verif Require Import Bytes Array.
Import ListNotations.
Local Open Scope N_scope.

(** src/ngircd/defines.h: WRITEBUFFER_FLUSH_LEN, WRITEBUFFER_MAX_LEN, WRITEBUFFER_SLINK_LEN *)
Definition FLUSH_LEN : N := 4096.
Definition MAX_LEN : N := 32768.
Definition SLINK_LEN : N := 65536.

(** What write(2) answers: it took (at most) [n] bytes; EAGAIN or EINTR; any other error. *)
Inductive wres := Wrote (n : N) | Again | Failed.

(** One connection: is the socket open; is CONN_ISCLOSING set; is its client a server; the
    write buffer; all the bytes the kernel took; all the bytes that were counted in bytes_out
    (src/ngircd/conn.c:1021), as a byte string instead of a number; and the future answers of
    write(2) ([Again] when used up) and realloc(3) (success when used up). *)
Record wconn := mkW {
  w_open : bool; w_closing : bool; w_server : bool; w_buf : array;
  w_wire : bytes; w_acc : bytes; w_io : list wres; w_mem : list bool }.

Definition set_buf a c := mkW (w_open c) (w_closing c) (w_server c) a (w_wire c) (w_acc c) (w_io c) (w_mem c).
Definition set_wire x c := mkW (w_open c) (w_closing c) (w_server c) (w_buf c) x (w_acc c) (w_io c) (w_mem c).
Definition set_acc x c := mkW (w_open c) (w_closing c) (w_server c) (w_buf c) (w_wire c) x (w_io c) (w_mem c).
Definition set_io x c := mkW (w_open c) (w_closing c) (w_server c) (w_buf c) (w_wire c) (w_acc c) x (w_mem c).
Definition set_memo x c := mkW (w_open c) (w_closing c) (w_server c) (w_buf c) (w_wire c) (w_acc c) (w_io c) x.
Definition set_flags o k c := mkW o k (w_server c) (w_buf c) (w_wire c) (w_acc c) (w_io c) (w_mem c).
Definition set_role r c := mkW (w_open c) (w_closing c) r (w_buf c) (w_wire c) (w_acc c) (w_io c) (w_mem c).

Definition obind {A B} (x : out A) (f : A -> out B) : out B := match x with UB => UB | Res a => f a end.

(** src/ngircd/conn.c:1267-1336 Handle_Write.  [close] is Conn_Close(Idx, "Write error", NULL,
    false).  write(2) is given the first array_bytes() bytes of the block; reading outside of
    the block is [UB]. *)
Definition Handle_Write (close : wconn -> out wconn) (c : wconn) : out (wconn * bool) :=
  if negb (w_open c) then Res (c, false) else
  let n := a_used (w_buf c) in
  if n =? 0 then Res (c, true) else
  if len (mem0 (w_buf c)) <? n then UB else
  let r := match w_io c with [] => Again | r :: _ => r end in
  let c1 := set_io (tl (w_io c)) c in
  match r with
  | Again => Res (c1, true)
  | Failed =>
      if w_closing c1 then Res (c1, false)
      else obind (close c1) (fun c2 => Res (c2, false))
  | Wrote k =>
      let k := N.min k n in
      let c2 := set_wire (w_wire c1 ++ take k (mem0 (w_buf c1))) c1 in
      obind (array_moveleft (w_buf c2) 1 k) (fun b => Res (set_buf b c2, true))
  end.

(** src/ngircd/conn.c:949-1027 Conn_Write.  [close] is Conn_Close(Idx, "Write buffer space
    exhausted", NULL, false). *)
Definition Conn_Write (close : wconn -> out wconn) (data : bytes) (c : wconn) : out (wconn * bool) :=
  match data with [] => UB | _ =>
  if negb (w_open c) then Res (c, false) else
  let limit := if w_server c then SLINK_LEN else MAX_LEN in
  obind (if FLUSH_LEN <=? add64 (a_used (w_buf c)) (len data)
         then Handle_Write close c else Res (c, true)) (fun r =>
  let (c, ok) := r in
  if negb ok then Res (c, false) else
  if limit <=? add64 (a_used (w_buf c)) (len data)
  then obind (close c) (fun c => Res (c, false)) else
  let m := match w_mem c with [] => true | m :: _ => m end in
  let c := set_memo (tl (w_mem c)) c in
  obind (array_catb m (w_buf c) data) (fun r =>
  let (b, ok) := r in
  let c := set_buf b c in
  if negb ok then Res (c, false) else Res (set_acc (w_acc c ++ data) c, true)))
  end.

Fixpoint writes (close : wconn -> out wconn) (l : list bytes) (c : wconn) : out wconn :=
  match l with
  | [] => Res c
  | d :: r => obind (Conn_Write close d c) (fun x => writes close r (fst x))
  end.

(** src/ngircd/conn.c:1035-1167 Conn_Close, what it does to the buffer: [lines] is what it
    sends to the client (lines 1076-1095).  While CONN_ISCLOSING is set a nested Conn_Close
    returns immediately (lines 1053-1058), so the nested calls are given that behaviour. *)
Definition Conn_Close (lines : list bytes) (c : wconn) : out wconn :=
  if w_closing c then Res c else
  if negb (w_open c) then UB else
  let c := set_flags true true c in
  obind (writes (fun c => Res c) lines c) (fun c =>
  obind (Handle_Write (fun c => Res c) c) (fun x =>
  let c := fst x in
  (* io_close(), array_free(); Init_Conn_Struct() clears the options *)
  Res (set_buf (array_free (w_buf c)) (set_flags false false c)))).

(** What happens to a connection: the server queues data, the socket becomes writable
    (src/ngircd/conn.c:226-252 cb_clientserver), somebody closes the connection and has it
    told [lines], its client becomes a server or stops to be one. *)
Inductive wop := Put (data : bytes) | Ready | Close (lines : list bytes) | Role (server : bool).

Definition wstep (o : wop) (c : wconn) : out wconn :=
  match o with
  | Put d => obind (Conn_Write (Conn_Close []) d c) (fun x => Res (fst x))
  | Ready => obind (Handle_Write (Conn_Close []) c) (fun x => Res (fst x))
  | Close l => if w_open c then Conn_Close l c else Res c
  | Role b => Res (set_role b c)
  end.

Fixpoint wsteps (l : list wop) (c : wconn) : out wconn :=
  match l with [] => Res c | o :: r => obind (wstep o c) (wsteps r) end.

(** A connection that was just accepted. *)
Definition fresh (io : list wres) (mem : list bool) : wconn :=
  mkW true false false array_init [] [] io mem.

(** Data is never empty (Conn_WriteStr always adds CR LF) nor longer than a message. *)
Definition data_ok (d : bytes) : Prop := 1 <= len d <= 512.
Definition wop_ok (o : wop) : Prop :=
  match o with Put d => data_ok d | Close l => Forall data_ok l | _ => True end.

(** ---- proofs ---- *)
Record sane (lim : N) (c : wconn) : Prop := {
  sn_arr : arr_ok (w_buf c);
  sn_acc : w_open c = true -> w_acc c = w_wire c ++ content (w_buf c);
  sn_pre : exists rest, w_acc c = w_wire c ++ rest;
  sn_len : a_used (w_buf c) < lim;
  sn_shut : w_open c = false -> w_closing c = false /\ content (w_buf c) = [] }.

Lemma len_content : forall a, arr_ok a -> len (content a) = a_used a.
Proof.
  intros a Ha. pose proof (len_mem0 _ Ha). destruct Ha as [H1 [H2 H3]]. unfold content. apply len_take. lia.
Qed.

Lemma take_content : forall a k, arr_ok a -> k <= a_used a ->
  content a = take k (mem0 a) ++ drop k (content a).
Proof.
  intros a k Ha Hk. unfold content.
  rewrite <- (firstn_skipn (N.to_nat k) (take (a_used a) (mem0 a))) at 1.
  unfold take, drop. rewrite firstn_firstn. f_equal. f_equal. lia.
Qed.

Definition okclose (lim : N) (k r : bool) (close : wconn -> out wconn) : Prop :=
  forall c, w_open c = true -> w_closing c = k -> w_server c = r -> sane lim c ->
  exists c', close c = Res c' /\ sane lim c' /\ w_server c' = w_server c /\
             (w_open c' = w_closing c) /\ w_closing c' = w_closing c /\ (w_closing c = true -> c' = c).

Lemma Handle_Write_sane : forall lim close c, okclose lim (w_closing c) (w_server c) close -> sane lim c ->
  exists c' b, Handle_Write close c = Res (c', b) /\ sane lim c' /\ w_server c' = w_server c /\
    w_closing c' = w_closing c /\ (b = true -> w_open c' = w_open c) /\
    (w_closing c = true -> w_open c' = w_open c) /\
    (b = true -> w_open c = true).
Proof.
  intros lim close c HC S. unfold Handle_Write. destruct (w_open c) eqn:O; simpl.
  2:{ exists c, false. rewrite O. split; [reflexivity|]. split; [exact S|]. split; [reflexivity|].
      split; [reflexivity|]. split; [discriminate|]. split; [reflexivity|]. discriminate. }
  pose proof (sn_arr _ _ S) as Ha. pose proof (len_mem0 _ Ha) as Lm.
  destruct (N.eqb_spec (a_used (w_buf c)) 0) as [E|E].
  { exists c, true. rewrite O. tauto. }
  destruct (N.ltb_spec (len (mem0 (w_buf c))) (a_used (w_buf c))) as [L|L].
  { destruct Ha as [H1 [H2 H3]]. lia. }
  assert (S1 : sane lim (set_io (tl (w_io c)) c)).
  { destruct S. constructor; simpl; auto. }
  destruct (match w_io c with [] => Again | r :: _ => r end) as [k | |].
  - set (k' := N.min k (a_used (w_buf c))). simpl.
    assert (Hk : k' < SIZE) by (destruct Ha as [H1 [H2 H3]]; unfold k'; lia).
    destruct (array_moveleft_correct (w_buf c) 1 k' Ha) as [b [Eb [Ob Cb]]]; [unfold SIZE; lia|exact Hk|].
    rewrite Eb. simpl. eexists. exists true. split; [reflexivity|]. rewrite N.mul_1_l in Cb.
    split; [|simpl; tauto].
    assert (Ub : a_used b <= a_used (w_buf c)).
    { rewrite <- (len_content b Ob), Cb, len_drop, (len_content _ Ha). lia. }
    destruct S as [_ A P Le Sh]. specialize (A O).
    assert (Eq : w_acc c = (w_wire c ++ take k' (mem0 (w_buf c))) ++ content b).
    { rewrite Cb, <- app_assoc, <- take_content; [exact A|exact Ha|unfold k'; lia]. }
    constructor; simpl; auto.
    + exists (content b). exact Eq.
    + lia.
    + congruence.
  - exists (set_io (tl (w_io c)) c), true. simpl. tauto.
  - simpl. destruct (w_closing c) eqn:K.
    + exists (set_io (tl (w_io c)) c), false. simpl. rewrite K, O.
      split; [reflexivity|]. split; [exact S1|]. split; [reflexivity|]. split; [reflexivity|].
      split; [discriminate|]. split; [reflexivity|discriminate].
    + destruct (HC (set_io (tl (w_io c)) c) O K eq_refl S1) as [c' [E1 [E2 [E3 [E4 [E5 E6]]]]]].
      rewrite E1. simpl. exists c', false. simpl in *. split; [reflexivity|]. split; [exact E2|].
      split; [exact E3|]. split; [congruence|]. split; [discriminate|]. split; [congruence|discriminate].
Qed.

Lemma set_memo_sane : forall lim c x, sane lim c -> sane lim (set_memo x c).
Proof. intros lim c x []. constructor; simpl; auto. Qed.

Lemma Conn_Write_sane : forall lim close c d, lim <= SLINK_LEN ->
  (if w_server c then SLINK_LEN else MAX_LEN) <= lim -> data_ok d -> okclose lim (w_closing c) (w_server c) close -> sane lim c ->
  exists c' b, Conn_Write close d c = Res (c', b) /\ sane lim c' /\ w_server c' = w_server c /\
    w_closing c' = w_closing c /\ (b = true -> w_open c = true /\ w_open c' = true) /\
    (w_closing c = true -> w_open c' = w_open c).
Proof.
  intros lim close c d Hl Hs Hd HC S. unfold Conn_Write.
  destruct d as [|x d0] eqn:Ed. { unfold data_ok, len in Hd; simpl in Hd; lia. }
  rewrite <- Ed in *. clear x d0 Ed.
  destruct (w_open c) eqn:O; simpl negb; cbv iota.
  2:{ exists c, false. rewrite O. split; [reflexivity|]. split; [exact S|]. split; [reflexivity|].
      split; [reflexivity|]. split; [discriminate|]. reflexivity. }
  set (limit := if w_server c then SLINK_LEN else MAX_LEN) in *.
  assert (P1 : exists c1 b1, (if FLUSH_LEN <=? add64 (a_used (w_buf c)) (len d)
               then Handle_Write close c else Res (c, true)) = Res (c1, b1) /\ sane lim c1 /\
               w_server c1 = w_server c /\ w_closing c1 = w_closing c /\ (b1 = true -> w_open c1 = true) /\
               (w_closing c = true -> w_open c1 = true)).
  { destruct (FLUSH_LEN <=? add64 (a_used (w_buf c)) (len d)).
    - destruct (Handle_Write_sane lim close c HC S) as [c1 [b1 [E1 [E2 [E3 [E4 [E5 [E6 E7]]]]]]]].
      exists c1, b1. rewrite O in *. tauto.
    - exists c, true. tauto. }
  destruct P1 as [c1 [b1 [E1 [S1 [R1 [K1 [O1 Q1]]]]]]]. rewrite E1. simpl.
  destruct b1; simpl.
  2:{ exists c1, false. split; [reflexivity|]. split; [exact S1|]. split; [exact R1|]. split; [exact K1|].
      split; [discriminate|exact Q1]. }
  specialize (O1 eq_refl).
  assert (Ad : add64 (a_used (w_buf c1)) (len d) = a_used (w_buf c1) + len d).
  { unfold add64. apply N.mod_small. pose proof (sn_len _ _ S1). unfold data_ok, SLINK_LEN, SIZE in *. lia. }
  rewrite Ad. destruct (N.leb_spec limit (a_used (w_buf c1) + len d)) as [L|L].
  - destruct (HC c1 O1 K1 R1 S1) as [c2 [E2 [S2 [R2 [O2 [K2 N2]]]]]]. rewrite E2. simpl.
    exists c2, false. split; [reflexivity|]. split; [exact S2|]. split; [congruence|]. split; [congruence|].
    split; [discriminate|]. intros K. congruence.
  - set (m := match w_mem c1 with [] => true | m :: _ => m end).
    destruct (array_catb_correct m (w_buf c1) d (sn_arr _ _ S1)) as [b [r [E2 [Ob [Ct [Cf _]]]]]].
    { unfold data_ok, SIZE in *. lia. }
    rewrite E2. simpl. destruct r; simpl.
    + eexists. exists true. split; [reflexivity|]. simpl. split; [|tauto].
      specialize (Ct eq_refl). destruct S1 as [A1 A2 A3 A4 A5]. specialize (A2 O1).
      constructor; simpl; auto.
      * intros _. rewrite A2, Ct, app_assoc. reflexivity.
      * exists (content (w_buf c1) ++ d). rewrite A2, app_assoc. reflexivity.
      * rewrite <- (len_content b Ob), Ct, len_app, (len_content _ A1). lia.
      * congruence.
    + specialize (Cf eq_refl). subst b. eexists. exists false. split; [reflexivity|]. simpl.
      split; [|split; [exact R1|split; [exact K1|split; [discriminate|congruence]]]].
      destruct S1. constructor; simpl; auto.
Qed.

(** While the connection is closing, a nested Conn_Close does nothing. *)
Lemma noclose_ok : forall lim r, okclose lim true r (fun c => Res c).
Proof. intros lim r c O K _ S. exists c. rewrite K. tauto. Qed.

Lemma writes_sane : forall lim l c, lim <= SLINK_LEN ->
  (if w_server c then SLINK_LEN else MAX_LEN) <= lim -> Forall data_ok l ->
  w_open c = true -> w_closing c = true -> sane lim c ->
  exists c', writes (fun c => Res c) l c = Res c' /\ sane lim c' /\ w_server c' = w_server c /\
    w_closing c' = true /\ w_open c' = true.
Proof.
  intros lim l. induction l as [|d l IH]; intros c Hl Hs HF O K S; cbn [writes].
  - exists c. tauto.
  - inversion HF as [|? ? Hd HF']; subst.
    destruct (Conn_Write_sane lim (fun c => Res c) c d Hl Hs Hd) as [c1 [b [E1 [S1 [R1 [K1 [_ O1]]]]]]];
      [rewrite K; apply noclose_ok|exact S|].
    rewrite E1. cbn [obind fst].
    destruct (IH c1 Hl) as [c2 [E2 [S2 [R2 [K2 O2]]]]]; auto; try congruence.
    { rewrite R1. exact Hs. } { rewrite (O1 K). exact O. }
    exists c2. rewrite R2, R1. tauto.
Qed.

Lemma Conn_Close_sane : forall lim l c, lim <= SLINK_LEN ->
  (if w_server c then SLINK_LEN else MAX_LEN) <= lim -> Forall data_ok l ->
  w_open c = true -> w_closing c = false -> sane lim c ->
  exists c', Conn_Close l c = Res c' /\ sane lim c' /\ w_server c' = w_server c /\
    w_closing c' = false /\ w_open c' = false.
Proof.
  intros lim l c Hl Hs HF O K S. unfold Conn_Close. rewrite K, O. cbn [negb].
  assert (S0 : sane lim (set_flags true true c)).
  { destruct S. constructor; simpl; auto. discriminate. }
  destruct (writes_sane lim l (set_flags true true c) Hl Hs HF eq_refl eq_refl S0) as [c1 [E1 [S1 [R1 [K1 O1]]]]].
  rewrite E1. cbn [obind].
  destruct (Handle_Write_sane lim (fun c => Res c) c1) as [c2 [b [E2 [S2 [R2 [K2 _]]]]]];
    [rewrite K1; apply noclose_ok|exact S1|].
  rewrite E2. cbn [obind fst]. eexists. split; [reflexivity|]. simpl. rewrite R2, R1.
  split; [|tauto]. destruct S2 as [A1 A2 A3 A4 A5]. constructor; simpl; auto.
  - unfold arr_ok, array_free, SIZE; simpl. lia.
  - discriminate.
  - lia.
Qed.

Lemma close_ok : forall lim (r : bool), lim <= SLINK_LEN -> (if r then SLINK_LEN else MAX_LEN) <= lim ->
  okclose lim false r (Conn_Close []).
Proof.
  intros lim r Hl Hr c O K R S. rewrite <- R in Hr.
  destruct (Conn_Close_sane lim [] c Hl Hr (Forall_nil _) O K S) as [c' [E1 [E2 [E3 [E4 E5]]]]].
  exists c'. rewrite K, E4, E5. split; [exact E1|]. split; [exact E2|]. split; [exact E3|]. split; [reflexivity|]. split; [reflexivity|discriminate].
Qed.

Definition wlim (c : wconn) : N := if w_server c then SLINK_LEN else MAX_LEN.
Lemma wlim_max : forall c, wlim c <= SLINK_LEN.
Proof. intro c. unfold wlim, SLINK_LEN, MAX_LEN. destruct (w_server c); lia. Qed.

Lemma wstep_sane : forall lim o c, lim <= SLINK_LEN -> wlim c <= lim -> wop_ok o ->
  w_closing c = false -> sane lim c ->
  exists c', wstep o c = Res c' /\ sane lim c' /\ w_closing c' = false /\
    w_server c' = (match o with Role b => b | _ => w_server c end).
Proof.
  intros lim o c Hl Hs Ho K S. destruct o as [d| |l|b]; simpl in *.
  - destruct (Conn_Write_sane lim (Conn_Close []) c d Hl Hs Ho) as [c1 [b [E1 [S1 [R1 [K1 _]]]]]];
      [rewrite K; apply close_ok; auto|exact S|]. rewrite E1. simpl. exists c1. rewrite K1, R1. tauto.
  - destruct (Handle_Write_sane lim (Conn_Close []) c) as [c1 [b [E1 [S1 [R1 [K1 _]]]]]];
      [rewrite K; apply close_ok; auto|exact S|]. rewrite E1. simpl. exists c1. rewrite K1, R1. tauto.
  - destruct (w_open c) eqn:O.
    + destruct (Conn_Close_sane lim l c Hl Hs Ho O K S) as [c1 [E1 [S1 [R1 [K1 O1]]]]]. exists c1. tauto.
    + exists c. tauto.
  - eexists. split; [reflexivity|]. split; [|simpl; tauto]. destruct S. constructor; simpl; auto.
Qed.

Lemma wsteps_sane : forall lim ops c, lim <= SLINK_LEN -> wlim c <= lim ->
  (lim = SLINK_LEN \/ ~ In (Role true) ops) -> Forall wop_ok ops -> w_closing c = false -> sane lim c ->
  exists c', wsteps ops c = Res c' /\ sane lim c' /\ w_closing c' = false.
Proof.
  intros lim ops. induction ops as [|o ops IH]; intros c Hl Hs HR HF K S; cbn [wsteps].
  - exists c. tauto.
  - inversion HF as [|? ? Ho HF']; subst.
    destruct (wstep_sane lim o c Hl Hs Ho K S) as [c1 [E1 [S1 [K1 R1]]]]. rewrite E1. cbn [obind].
    apply IH; auto.
    + destruct HR as [-> | N]; [apply wlim_max|]. unfold wlim in *. rewrite R1.
      destruct o as [| | |[|]]; auto; [exfalso; apply N; left; reflexivity|].
      revert Hs. unfold SLINK_LEN, MAX_LEN. destruct (w_server c); lia.
    + destruct HR as [-> | N]; [left; reflexivity|right]. intro. apply N. right. assumption.
Qed.

Lemma fresh_sane : forall io mem, sane MAX_LEN (fresh io mem).
Proof.
  intros. constructor; simpl.
  - unfold arr_ok, SIZE; simpl. lia.
  - reflexivity.
  - exists []. reflexivity.
  - unfold MAX_LEN. lia.
  - discriminate.
Qed.

Lemma sane_incl : forall a b c, a <= b -> sane a c -> sane b c.
Proof. intros a b c L []. constructor; auto. lia. Qed.

(** The whole story of a connection. *)
Lemma stream : forall io mem ops, Forall wop_ok ops ->
  exists c, wsteps ops (fresh io mem) = Res c /\
    (exists rest, w_acc c = w_wire c ++ rest) /\
    (w_open c = true -> w_acc c = w_wire c ++ content (w_buf c)) /\
    len (content (w_buf c)) < SLINK_LEN /\
    (~ In (Role true) ops -> len (content (w_buf c)) < MAX_LEN).
Proof.
  intros io mem ops HF.
  destruct (wsteps_sane SLINK_LEN ops (fresh io mem)) as [c [E [S _]]]; auto; try lia;
    [apply wlim_max | eapply sane_incl; [|apply fresh_sane]; unfold SLINK_LEN, MAX_LEN; lia|].
  exists c. split; [exact E|]. split; [apply S|]. split; [apply S|].
  rewrite (len_content _ (sn_arr _ _ S)). split; [apply S|]. intro N.
  destruct (wsteps_sane MAX_LEN ops (fresh io mem)) as [c2 [E2 [S2 _]]].
  1, 2: vm_compute; discriminate.
  1: right; exact N. 1: exact HF. 1: reflexivity. 1: apply fresh_sane.
  rewrite E in E2. injection E2 as <-. apply S2.
Qed.

(** Where every connection of [stream] is: *)
Definition in_use (c : wconn) : Prop :=
  exists io mem ops, Forall wop_ok ops /\ wsteps ops (fresh io mem) = Res c.

Lemma in_use_sane : forall c, in_use c -> sane SLINK_LEN c /\ w_closing c = false.
Proof.
  intros c [io [mem [ops [HF E]]]].
  destruct (wsteps_sane SLINK_LEN ops (fresh io mem)) as [c1 [E1 [S K]]]; auto; try lia;
    [apply wlim_max | eapply sane_incl; [|apply fresh_sane]; unfold SLINK_LEN, MAX_LEN; lia|].
  rewrite E in E1. injection E1 as <-. auto.
Qed.

Lemma closed_by : forall c l c', in_use c -> w_open c = true -> Forall data_ok l ->
  Conn_Close l c = Res c' -> w_open c' = false.
Proof.
  intros c l c' U O F E. destruct (in_use_sane c U) as [S K].
  destruct (Conn_Close_sane SLINK_LEN l c) as [c1 [E1 [_ [_ [_ X]]]]]; auto; [lia|apply wlim_max|].
  congruence.
Qed.

(** Queueing data on an open connection either appends it to the stream, or closes the
    connection, or memory was exhausted. *)
Lemma put_cases : forall c d c', in_use c -> w_open c = true -> data_ok d ->
  wstep (Put d) c = Res c' ->
  (w_open c' = true /\ w_acc c' = w_acc c ++ d) \/
  (w_open c' = false /\ w_acc c' = w_acc c) \/
  (w_open c' = true /\ w_acc c' = w_acc c /\ In false (w_mem c)).
Proof.
  intros c d c' U O Hd E. destruct (in_use_sane c U) as [S K]. simpl in E.
  assert (CC : forall x y, w_open x = true -> w_closing x = false -> sane SLINK_LEN x ->
               Conn_Close [] x = Res y -> w_open y = false /\ w_acc y = w_acc x).
  { intros x y Ox Kx Sx Ex. split.
    - destruct (Conn_Close_sane SLINK_LEN [] x) as [z [Ez [_ [_ [_ X]]]]]; auto; [lia|apply wlim_max|]. congruence.
    - unfold Conn_Close in Ex. rewrite Kx, Ox in Ex. cbn [negb writes obind] in Ex.
      destruct (Handle_Write (fun c => Res c) (set_flags true true x)) as [|[z bz]] eqn:Hz; [discriminate|].
      cbn [obind fst] in Ex. injection Ex as <-. simpl. revert Hz. unfold Handle_Write. simpl.
      destruct (a_used (w_buf x) =? 0). { intros [= <- <-]; reflexivity. }
      destruct (len (mem0 (w_buf x)) <? a_used (w_buf x)); [discriminate|].
      destruct (match w_io x with [] => Again | r :: _ => r end); simpl.
      + destruct (array_moveleft _ _ _); [discriminate|]. intros [= <- <-]. reflexivity.
      + intros [= <- <-]. reflexivity.
      + intros [= <- <-]. reflexivity. }
  assert (HW : forall x y b, w_open x = true -> w_closing x = false -> sane SLINK_LEN x ->
               Handle_Write (Conn_Close []) x = Res (y, b) ->
               w_acc y = w_acc x /\ (b = true -> w_mem y = w_mem x /\ w_open y = true) /\ (b = false -> w_open y = false)).
  { intros x y b Ox Kx Sx. unfold Handle_Write. rewrite Ox. simpl.
    destruct (a_used (w_buf x) =? 0). { intros [= <- <-]. repeat split; auto; discriminate. }
    destruct (len (mem0 (w_buf x)) <? a_used (w_buf x)); [discriminate|].
    destruct (match w_io x with [] => Again | r :: _ => r end); simpl.
    - destruct (array_moveleft _ _ _); [discriminate|]. intros [= <- <-]. simpl. repeat split; auto; discriminate.
    - intros [= <- <-]. simpl. repeat split; auto; discriminate.
    - rewrite Kx. destruct (Conn_Close [] (set_io (tl (w_io x)) x)) as [|z] eqn:Ez; [discriminate|].
      simpl. intros [= <- <-]. apply CC in Ez; auto.
      + simpl in Ez. repeat split; try tauto; try discriminate.
      + destruct Sx. constructor; simpl; auto. }
  unfold Conn_Write in E. destruct d as [|x d0] eqn:Ed. { discriminate. }
  rewrite <- Ed in *. clear x d0 Ed. rewrite O in E. cbn [negb] in E.
  match type of E with obind (obind ?e _) _ = _ => destruct e as [|[c1 b1]] eqn:E1; [discriminate|] end.
  assert (P1 : sane SLINK_LEN c1 /\ w_closing c1 = false /\ w_acc c1 = w_acc c /\
               (b1 = true -> w_mem c1 = w_mem c /\ w_open c1 = true) /\ (b1 = false -> w_open c1 = false)).
  { destruct (FLUSH_LEN <=? add64 (a_used (w_buf c)) (len d)).
    - destruct (Handle_Write_sane SLINK_LEN (Conn_Close []) c) as [c2 [b2 [E2 [S2 [_ [K2 _]]]]]];
        [rewrite K; apply close_ok; [lia|apply wlim_max]|exact S|].
      rewrite E1 in E2. injection E2 as <- <-. destruct (HW c c1 b1 O K S E1) as [A1 [A2 A3]]. rewrite K2. tauto.
    - injection E1 as <- <-. split; [exact S|]. split; [exact K|]. split; [reflexivity|].
      split; [auto|discriminate]. }
  destruct P1 as [S1 [K1 [A1 [M1 N1]]]]. cbn [obind] in E. destruct b1; cbn [negb] in E.
  2:{ cbn [obind fst] in E. injection E as <-. right. left. auto. }
  destruct (M1 eq_refl) as [M2 O1].
  destruct (_ <=? _) eqn:L in E.
  - destruct (Conn_Close [] c1) as [|z] eqn:Ez; [discriminate|]. cbn [obind fst] in E. injection E as <-.
    apply CC in Ez; auto. right. left. rewrite <- A1. exact Ez.
  - simpl in E.
    destruct (array_catb_correct (match w_mem c1 with [] => true | m :: _ => m end) (w_buf c1) d (sn_arr _ _ S1))
      as [b [r [E2 [Ob [Ct [Cf [Cm _]]]]]]]. { unfold data_ok, SIZE in *. lia. }
    rewrite E2 in E. simpl in E. destruct r; simpl in E; injection E as <-; simpl.
    + left. rewrite A1. auto.
    + right. right. split; [exact O1|]. split; [exact A1|]. rewrite <- M2.
      destruct (Cm eq_refl) as [Fm|Fm].
      * destruct (w_mem c1) as [|m r]; [discriminate|]. left. exact Fm.
      * exfalso. pose proof (sn_len _ _ S1). unfold SLINK_LEN, SIZE, data_ok in *. lia.
Qed.

(** When the kernel takes everything that waits, everything queued so far has been sent. *)
Lemma ready_drains : forall c n io c', in_use c -> w_open c = true ->
  w_io c = Wrote n :: io -> len (content (w_buf c)) <= n ->
  wstep Ready c = Res c' -> w_open c' = true /\ w_wire c' = w_acc c /\ w_acc c' = w_acc c /\ content (w_buf c') = [].
Proof.
  intros c n io c' U O Hio Hn E. destruct (in_use_sane c U) as [S K]. pose proof (sn_arr _ _ S) as Ha.
  rewrite (len_content _ Ha) in Hn. pose proof (sn_acc _ _ S O) as A.
  simpl in E. unfold Handle_Write in E. rewrite O in E. cbn [negb] in E.
  destruct (N.eqb_spec (a_used (w_buf c)) 0) as [Z|Z].
  { injection E as <-. assert (content (w_buf c) = []) as C0.
    { unfold content. rewrite Z. reflexivity. } rewrite C0, app_nil_r in A. rewrite C0. auto. }
  destruct (len (mem0 (w_buf c)) <? a_used (w_buf c)) eqn:L; [discriminate|].
  rewrite Hio in E. rewrite N.min_r in E by exact Hn. simpl in E.
  destruct (array_moveleft_correct (w_buf c) 1 (a_used (w_buf c)) Ha) as [b [Eb [Ob Cb]]];
    [unfold SIZE; lia|destruct Ha as [H1 [H2 H3]]; lia|].
  rewrite Eb in E. simpl in E. injection E as <-. simpl. split; [exact O|].
  change (take (a_used (w_buf c)) (mem0 (w_buf c))) with (content (w_buf c)).
  split; [symmetry; exact A|]. split; [reflexivity|]. rewrite Cb, N.mul_1_l.
  unfold drop. apply skipn_all2. pose proof (len_content _ Ha). unfold len in *. lia.
Qed.
