(** Concrete runs of the modelled server, evaluated in the kernel.  They show that the states the
    theorems talk about exist, and serve as tests of the model. *)
From Coq Require Import List Ascii String ZArith NArith Bool Lia.
From Verif Require Import Bytes Match Lists Hash ParseReq State Messages Monad Core Write Info Chan Mode Msg Login Oper Server Dispatch Conn.
Import ListNotations.

(** the outcome of start-up followed by a list of events *)
Definition session (c : conf) (servers : list cserver) (l : list event) : res unit :=
  match boot c servers 1000 1 with Ok _ s => run l s | Bad w => Bad w end.
Lemma reach_run : forall l s s', reachable s -> run l s = Ok tt s' -> reachable s'.
Proof.
  induction l as [|e l IH]; cbn [run mfor]; intros s s' R H.
  - inversion H. subst. auto.
  - unfold run in H. cbn [mfor] in H. unfold bind in H. destruct (step e s) as [[] s1|] eqn:E; [|discriminate]. eapply IH; [|exact H]. eapply R_step; eauto.
Qed.
Lemma reach_session : forall c sv l s, conf_ok c -> session c sv l = Ok tt s -> reachable s.
Proof. intros c sv l s K H. unfold session in H. destruct (boot c sv 1000 1) as [[] s0|] eqn:E; [|discriminate]. eapply reach_run; [|exact H]. eapply R_boot; eauto. Qed.

Definition final (c : conf) (sv : list cserver) (l : list event) : state :=
  match session c sv l with Ok _ s => s | Bad _ => init_state c sv 0 0 end.
Definition runs (c : conf) (sv : list cserver) (l : list event) : bool := match session c sv l with Ok _ _ => true | Bad _ => false end.
Lemma reach_final : forall c sv l, conf_ok c -> runs c sv l = true -> reachable (final c sv l).
Proof. intros c sv l K. unfold runs, final. destruct (session c sv l) as [[] s|] eqn:E; [|discriminate]. intros _. eapply reach_session; eauto. Qed.

Definition crlf (s : string) : bytes := B s ++ [CR; LF].
Definition lines (l : list string) : bytes := List.concat (map crlf l).
Definition conf0 : conf := mkConf (B "irc.example.net") (B "Info") [] (B "a1") (B "a2") (B "mail") (B "net") [] [] 120 20 60
  [mkCoper (B "root") (B "secret") None] [] (B "#&+") false false false false [] [] [] false false true false [] 0 10 5 10 100 (-1) false (B "host") [] true
  (fun _ => B "0.0") (fun _ => B "now") (B "today") (fun _ => []).
Lemma conf0_ok : conf_ok conf0.
Proof. repeat split; vm_compute; auto; try lia. Qed.

Definition login (i : nat) (ip nick : string) : list event :=
  [E_Accept i (B ip) false; E_Resolved i []; E_Data i (lines ["NICK " ++ nick; "USER " ++ nick ++ " 0 0 :Real " ++ nick]%string)].
(** two users on a channel *)
Definition two_users : list event :=
  login 5 "1.2.3.4" "alice" ++ login 6 "1.2.3.5" "bob" ++
  [E_Time 2000 7; E_Data 5 (crlf "JOIN #Test"); E_Data 6 (crlf "JOIN #test")].
(** a linked server with a user and another server behind it *)
Definition peer : cserver := mkCserver (B "1.2.3.9") (B "hub.example.net") (B "in") (B "out") 6667 (-1) 0 false false None [].
Definition link : list event :=
  [E_Accept 7 (B "1.2.3.9") false; E_Resolved 7 [];
   E_Data 7 (lines ["PASS in 0210-IRC+ ngIRCd|26:CLMSX"; "SERVER hub.example.net 1 :Hub"]%string);
   E_Time 2010 7;
   E_Data 7 (lines [":hub.example.net SERVER leaf.example.net 2 9 :Leaf"]%string);
   E_Data 7 (lines [":hub.example.net NICK carol 1 carol host.example.org 1 + :Carol C"]%string);
   E_Data 7 (lines [":leaf.example.net NICK dave 2 dave host.example.org 9 + :Dave D"]%string);
   E_Data 7 (lines [":hub.example.net NJOIN #test :carol,dave"]%string)].
Definition show (r : res unit) : list (nat * string) + why :=
  match r with Ok _ s => inl (rev (map (fun p => (fst p, string_of_list_ascii (snd p))) (s_out s))) | Bad w => inr w end.

(** the state with two local users and, on a linked server and one behind it, two remote users,
    all on one channel *)
Definition st_link : state := final conf0 [peer] (two_users ++ link).
Lemma st_link_reachable : reachable st_link.
Proof. apply reach_final; [exact conf0_ok|vm_compute; reflexivity]. Qed.
(** handle of the client with this name *)
Definition named (n : string) (s : state) : handle :=
  match find (fun p => caseeq (cl_id (snd p)) (B n)) (s_heap s) with Some (h, _) => h | None => 0 end.
Definition cnamed (n : string) (s : state) : chandle :=
  match find (fun p => caseeq (ch_name (snd p)) (B n)) (s_chans s) with Some (h, _) => h | None => 0 end.

(** what a peer can do to the tables: [peer_says l] is the session above with these lines from the peer *)
Definition peer_says (l : list string) : list event := two_users ++ link ++ map (fun x => E_Data 7 (crlf x)) l.
Notation after_link l := (final conf0 [peer] (peer_says l)).
Lemma after_link_reachable : forall l, runs conf0 [peer] (peer_says l) = true -> reachable (after_link l).
Proof. intro l. apply reach_final. exact conf0_ok. Qed.

(** Checkers for concrete states: evaluated by [vm_compute]. *)
From Verif Require Import Spec.
Definition has (s : state) (h : handle) (f : client -> bool) : bool :=
  existsb (Nat.eqb h) (s_clients s) && match lookup h (s_heap s) with Some c => f c | None => false end.
Lemma has_ok : forall s h f, has s h f = true -> exists c, known s h c /\ f c = true.
Proof.
  intros s h f H. apply andb_true_iff in H. destruct H as [H1 H2]. destruct (lookup h (s_heap s)) as [c|] eqn:E; [|discriminate]. exists c. split; auto. split; auto.
  apply existsb_exists in H1. destruct H1 as (x & A & B). apply Nat.eqb_eq in B. subst; auto.
Qed.
Definition chas (s : state) (h : chandle) (f : channel -> bool) : bool := match lookup h (s_chans s) with Some c => f c | None => false end.
Lemma chas_ok : forall s h f, chas s h f = true -> exists c, exists_chan s h c /\ f c = true.
Proof. intros s h f H. unfold chas in H. unfold exists_chan. destruct (lookup h (s_chans s)) as [c|]; [eauto|discriminate]. Qed.
Definition calm (s : state) : bool := forallb (fun o => match o with O_Retype | O_Self => false | _ => true end) (s_odd s).
Lemma calm_ok : forall s, calm s = true -> undisturbed s.
Proof. intros s H. unfold calm in H. rewrite forallb_forall in H. split; intro A; specialize (H _ A); discriminate. Qed.
Definition no_odd (s : state) : bool := match s_odd s with [] => true | _ => false end.
Lemma no_odd_ok : forall s o, no_odd s = true -> ~ In o (s_odd s).
Proof. intros s o. unfold no_odd. destruct (s_odd s); [auto|discriminate]. Qed.
Definition user_b (nm : string) (c : client) : bool := is_some (cl_conn c) && ctype_eqb (cl_type c) T_USER && beq (cl_id c) (B nm).
Lemma user_ok : forall nm c, user_b nm c = true -> is_local c /\ cl_type c = T_USER /\ cl_id c = B nm.
Proof.
  intros nm c H. unfold user_b in H. rewrite !andb_true_iff in H. destruct H as [[H1 H2] H3]. split; [|split].
  - destruct (cl_conn c) as [i|] eqn:E; [exists i; auto|discriminate].
  - destruct (cl_type c); try discriminate; auto.
  - apply beq_eq. auto.
Qed.
Definition rem_b (t : ctype) (nm : string) (c : client) : bool := ctype_eqb (cl_type c) t && beq (cl_id c) (B nm).
Lemma rem_ok : forall t nm c, rem_b t nm c = true -> cl_type c = t /\ cl_id c = B nm.
Proof. intros t nm c H. unfold rem_b in H. rewrite andb_true_iff in H. destruct H as [H1 H2]. split; [|apply beq_eq; auto]. destruct (cl_type c), t; try discriminate; auto. Qed.
Lemma not_In_b : forall x l, memb x l = false -> ~ In x l.
Proof. intros x l H A. assert (memb x l = true); [|congruence]. unfold memb. apply existsb_exists. exists x. split; auto. apply Ascii.eqb_refl. Qed.

(** ** single commands in concrete states *)
Definition rq (l : list string) : request :=
  match l with c :: r => mkReq None (B c) (map B r) | [] => mkReq None [] [] end.
Definition rqp (p : string) (l : list string) : request := mkReq (Some (B p)) (rq_command (rq l)) (rq_args (rq l)).
Definition serves (s : state) (i : connid) (h : handle) (f : client -> bool) : bool :=
  match lookup i (s_conns s) with
  | Some cn => match co_client cn with Some x => Nat.eqb x h && match lookup h (s_heap s) with Some c => f c | None => false end | None => false end
  | None => false end.
Lemma serves_ok : forall s i h f, serves s i h f = true -> exists c, client_of s i h c /\ f c = true.
Proof.
  intros s i h f H. unfold serves in H. destruct (lookup i (s_conns s)) as [cn|] eqn:E; [|discriminate]. destruct (co_client cn) as [x|] eqn:F; [|discriminate].
  apply andb_true_iff in H. destruct H as [H1 H2]. apply Nat.eqb_eq in H1. subst x. destruct (lookup h (s_heap s)) as [c|] eqn:G; [|discriminate]. exists c. repeat split; eauto.
Qed.
Definition doing {A} (m : M A) (s : state) (f : A -> state -> bool) : bool := match m s with Ok a s' => f a s' | Bad _ => false end.
Lemma doing_ok : forall A (m : M A) s f, doing m s f = true -> exists a s', m s = Ok a s' /\ f a s' = true.
Proof. intros A m s f H. unfold doing in H. destruct (m s) as [a s'|]; [eauto|discriminate]. Qed.
Definition type_b (t : ctype) (c : client) : bool := ctype_eqb (cl_type c) t.
Lemma type_b_ok : forall t c, type_b t c = true -> cl_type c = t.
Proof. intros t c H. unfold type_b in H. destruct (cl_type c), t; try discriminate; auto. Qed.
(** alice has become an operator *)
Notation st_oper := (final conf0 [peer] (two_users ++ link ++ [E_Data 5 (crlf "OPER root secret")])).
Lemma st_oper_reachable : reachable st_oper.
Proof. apply reach_final; [exact conf0_ok|vm_compute; reflexivity]. Qed.
(** a connection that has only given its nickname *)
Notation st_nick := (final conf0 [peer] (two_users ++ [E_Accept 8 (B "1.2.3.8") false; E_Resolved 8 []; E_Data 8 (crlf "NICK eve")])).
Lemma st_nick_reachable : reachable st_nick.
Proof. apply reach_final; [exact conf0_ok|vm_compute; reflexivity]. Qed.
(** the line [t] was sent to connection [i] *)
Definition sends (i : connid) (t : string) (s : state) : bool := existsb (fun p => Nat.eqb (fst p) i && beq (snd p) (B t ++ [CR; LF])) (s_out s).
Definition conn_b (i : connid) (f : conn -> bool) (s : state) : bool := match assoc i (s_conns s) with Some c => f c | None => false end.
Lemma conn_b_ok : forall i f s, conn_b i f s = true -> exists c, assoc i (s_conns s) = Some c /\ f c = true.
Proof. intros i f s H. unfold conn_b in H. destruct (assoc i (s_conns s)) as [c|]; [|discriminate]. eauto. Qed.
Lemma nil_b : forall A (l : list A), match l with [] => true | _ => false end = true -> l = [].
Proof. intros A [|]; auto; discriminate. Qed.

(** whichever of the lines [l] connection [i] sends, [f] holds afterwards *)
Lemma doing_all : forall i s f l, forallb (fun t => doing (step (E_Data i (crlf t))) s (fun _ s => f s)) l = true -> forall t s', In t l -> step (E_Data i (crlf t)) s = Ok tt s' -> f s' = true.
Proof. intros i s f l K t s' I H. rewrite forallb_forall in K. specialize (K _ I). unfold doing in K. rewrite H in K. exact K. Qed.
