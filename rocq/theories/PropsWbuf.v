(** C46: the outbound buffer of a connection. *)
From Coq Require Import List Ascii String NArith Lia Bool Arith.
From Verif Require Import Bytes Array Wbuf.
Import ListNotations.
Local Open Scope N_scope.

(** Specification vocabulary, from Wbuf.v: a connection starts [fresh] and goes through any
    list of operations ([Put] data, socket [Ready], [Close], [Role] change) with any answers of
    write(2) and realloc(3).  [w_wire] are all the bytes the kernel took from the server,
    [w_acc] all the bytes that Conn_Write accepted for the connection (what bytes_out counts),
    [content (w_buf c)] the bytes that wait. *)

(** No operation ever touches memory outside of the buffer (the run has a result, not [UB]);
    what the peer gets is always a prefix of what was queued, in order; while the connection is
    open what is missing is exactly what waits in the buffer; and that is less than 64 KiB,
    less than 32 KiB if the peer was never a server. *)
Theorem C46_stream : forall io mem ops,
  Forall wop_ok ops ->
  exists c, wsteps ops (fresh io mem) = Res c /\
    (exists rest, w_acc c = w_wire c ++ rest) /\
    (w_open c = true -> w_acc c = w_wire c ++ content (w_buf c)) /\
    len (content (w_buf c)) < 65536 /\
    (~ In (Role true) ops -> len (content (w_buf c)) < 32768).
Proof. exact stream. Qed.
Print Assumptions C46_stream.

(** Queued data becomes part of the stream, or the connection is closed; only when memory is
    exhausted the data is dropped although the connection stays open. *)
Theorem C46_put : forall c d c',
  in_use c -> w_open c = true -> data_ok d ->
  wstep (Put d) c = Res c' ->
  (w_open c' = true /\ w_acc c' = w_acc c ++ d) \/
  (w_open c' = false /\ w_acc c' = w_acc c) \/
  (w_open c' = true /\ w_acc c' = w_acc c /\ In false (w_mem c)).
Proof. exact put_cases. Qed.
Print Assumptions C46_put.

(** Once the kernel takes all that waits, everything queued so far has been sent. *)
Theorem C46_drained : forall c n io c',
  in_use c -> w_open c = true ->
  w_io c = Wrote n :: io -> len (content (w_buf c)) <= n ->
  wstep Ready c = Res c' ->
  w_open c' = true /\ w_wire c' = w_acc c /\ w_acc c' = w_acc c /\ content (w_buf c') = [].
Proof. exact ready_drains. Qed.
Print Assumptions C46_drained.

(** ---- non-trivial cases ---- *)
Definition line (n : nat) : bytes := repeat "x"%char n ++ [CR; LF].
Definition many (k : nat) : list wop := repeat (Put (line 510)) k.

Definition run_of (io : list wres) (mem : list bool) (ops : list wop) : option (bool * N * N * N) :=
  match wsteps ops (fresh io mem) with
  | Res c => Some (w_open c, len (w_wire c), len (w_acc c), len (content (w_buf c)))
  | UB => None
  end.

(** A slow reader: partial writes, the buffer is flushed once 4096 bytes are reached, the
    connection is closed when 32768 bytes would be reached; a server gets twice as much. *)
Example C46_partial_writes :
  run_of [Wrote 100; Again; Wrote 4000] [] (many 8 ++ [Ready; Ready]) = Some (true, 4096, 4096, 0).
Proof. vm_compute. reflexivity. Qed.
Example C46_overflow_user : run_of [] [] (many 63) = Some (true, 0, 32256, 32256) /\
                            run_of [] [] (many 64) = Some (false, 0, 32256, 0).
Proof. vm_compute. auto. Qed.
Example C46_overflow_server : run_of [] [] (Role true :: many 127) = Some (true, 0, 65024, 65024) /\
                              run_of [] [] (Role true :: many 128) = Some (false, 0, 65024, 0).
Proof. vm_compute. auto. Qed.
Example C46_error_closes : run_of [Failed] [] (many 3 ++ [Ready; Ready]) = Some (false, 0, 1536, 0).
Proof. vm_compute. reflexivity. Qed.
Example C46_last_words : run_of [Wrote 600; Wrote 5000] [] (many 2 ++ [Ready; Close [line 20]; Put (line 3)])
                         = Some (false, 1046, 1046, 0).
Proof. vm_compute. reflexivity. Qed.
Example C46_out_of_memory : run_of [] [true; false] (many 3) = Some (true, 0, 1024, 1024).
Proof. vm_compute. reflexivity. Qed.

Lemma many_ok : forall k, Forall wop_ok (many k).
Proof.
  induction k; [constructor|]. unfold many in *. cbn [repeat]. constructor; [|exact IHk].
  vm_compute. split; discriminate.
Qed.

Lemma wsteps_app : forall a b c, wsteps (a ++ b) c = obind (wsteps a c) (wsteps b).
Proof.
  induction a as [|o a IH]; intros b c; cbn [wsteps app obind]; [reflexivity|].
  destruct (wstep o c) as [|c1]; [reflexivity|]. cbn [obind]. apply IH.
Qed.

(** What a run ends with, as far as it can be computed. *)
Definition check (f : wconn -> bool) (io : list wres) (ops : list wop) : bool :=
  match wsteps ops (fresh io []) with UB => false | Res c => f c end.
Lemma check_ok : forall f io ops c, check f io ops = true -> wsteps ops (fresh io []) = Res c -> f c = true.
Proof. intros f io ops c H E. unfold check in H. rewrite E in H. exact H. Qed.

Lemma last_step : forall io ops o c, Forall wop_ok (ops ++ [o]) ->
  wsteps ops (fresh io []) = Res c ->
  exists c', wstep o c = Res c' /\ wsteps (ops ++ [o]) (fresh io []) = Res c'.
Proof.
  intros io ops o c F E. destruct (stream io [] _ F) as [c' [E' _]]. exists c'. split; [|exact E'].
  rewrite wsteps_app, E in E'. cbn [obind wsteps] in E'. destruct (wstep o c); [discriminate|exact E'].
Qed.

Example C46_put_nonvacuous : exists c c', in_use c /\ w_open c = true /\ data_ok (line 510) /\
  wstep (Put (line 510)) c = Res c' /\ w_open c' = false.
Proof.
  assert (D : data_ok (line 510)) by (vm_compute; split; discriminate).
  destruct (stream [] [] (many 63) (many_ok 63)) as [c [E _]].
  destruct (last_step [] (many 63) (Put (line 510)) c) as [c' [E1 E2]];
    [apply Forall_app; split; [apply many_ok|constructor; [exact D|constructor]]|exact E|].
  exists c, c'. split; [exists [], [], (many 63); split; [apply many_ok|exact E]|].
  split; [eapply check_ok; [|exact E]; vm_compute; reflexivity|].
  split; [exact D|]. split; [exact E1|].
  apply Bool.negb_true_iff. refine (check_ok (fun c => negb (w_open c)) _ _ c' _ E2). vm_compute. reflexivity.
Qed.

Example C46_drained_nonvacuous : exists c n io c', in_use c /\ w_open c = true /\
  w_io c = Wrote n :: io /\ len (content (w_buf c)) <= n /\ wstep Ready c = Res c' /\
  content (w_buf c) <> [].
Proof.
  destruct (stream [Wrote 5000] [] (many 2) (many_ok 2)) as [c [E _]].
  destruct (last_step [Wrote 5000] (many 2) Ready c) as [c' [E1 E2]];
    [apply Forall_app; split; [apply many_ok|constructor; [exact I|constructor]]|exact E|].
  exists c, 5000, [], c'. split; [exists [Wrote 5000], [], (many 2); split; [apply many_ok|exact E]|].
  split; [eapply check_ok; [|exact E]; vm_compute; reflexivity|].
  assert (W1 : match w_io c with [Wrote 5000] => true | _ => false end = true)
    by (refine (check_ok (fun c => match w_io c with [Wrote 5000] => true | _ => false end) _ _ c _ E); vm_compute; reflexivity).
  assert (W2 : (len (content (w_buf c)) =? 1024) = true)
    by (refine (check_ok (fun c => len (content (w_buf c)) =? 1024) _ _ c _ E); vm_compute; reflexivity).
  apply N.eqb_eq in W2. split.
  { clear -W1. destruct (w_io c) as [|[n| |] [|? ?]]; try discriminate. 2:{ destruct n as [|p]; try discriminate. repeat (destruct p; try discriminate). }
    destruct n as [|p]; try discriminate. repeat (destruct p; try discriminate). reflexivity. }
  split; [rewrite W2; discriminate|]. split; [exact E1|]. intro Z. rewrite Z in W2. discriminate.
Qed.
