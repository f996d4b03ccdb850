(** C08: what the server writes to its connections are legal lines.

    [legal_line] (Clean0.v): at most 512 bytes, CR LF at the end, no other CR, LF or NUL.
    [clean_conf], [clean_cserver] (CleanRec.v): no string of the configuration contains CR or LF
    (MOTD and help text: no line of it).  [plain_names] (CleanTop.v): the text of the peer address and
    the host name reported by the resolver contain no CR or LF.  The data received from the network
    ([E_Data]) is unrestricted. *)
From Coq Require Import List Ascii String ZArith NArith Bool Lia Arith.
From Verif Require Import Bytes Match Lists Hash ParseReq State Messages Monad Core Write Info Chan Mode Msg Login Oper Server Dispatch Conn
  Clean0 CleanRec Clean CleanTac CleanCore CleanTop Sessions.
Import ListNotations.

(** every line written to any connection in any history *)
Theorem C08_legal_lines : forall c servers t r evs s s', clean_conf c -> Forall clean_cserver servers -> boot c servers t r = Ok tt s ->
  Forall plain_names evs -> run evs s = Ok tt s' -> forall i l, In (i, l) (s_out s') -> legal_line l.
Proof. exact all_legal. Qed.

(** the configuration, the events and the outcome of a session with hostile input: bare CR and LF in
    messages, NUL bytes, over-long topics, a line of the peer with control characters *)
Definition hostile : list event :=
  two_users ++ link ++
  [E_Time 3000 7;
   E_Data 5 (B "PRIVMSG bob :one" ++ [CR] ++ B "PRIVMSG bob :two" ++ [LF] ++ B "PRIVMSG bob :three" ++ [CR; CR; LF; LF]);
   E_Time 4000 7;
   E_Data 5 (B "TOPIC #test :" ++ repeat "x"%char 480 ++ [CR; LF]);
   E_Time 5000 7;
   E_Data 5 (B "PRIVMSG #test :" ++ repeat "y"%char 490 ++ [CR; LF]);
   E_Data 7 (B ":carol AWAY :a" ++ [CR] ++ B ":carol PRIVMSG bob :four" ++ [LF])].
Notation st_hostile := (final conf0 [peer] hostile).
Definition text_to (i : connid) (b : bytes) (s : state) : bool := existsb (fun p => Nat.eqb (fst p) i && beq (snd p) b) (s_out s).
Definition len_to (i : connid) (n : nat) (s : state) : bool := existsb (fun p => Nat.eqb (fst p) i && Nat.eqb (List.length (snd p)) n) (s_out s).

Lemma conf0_clean : clean_conf conf0.
Proof. unfold conf0. constructor; cbn; try (apply okb_clv; reflexivity); try (constructor; fail); try (intros ? _; apply okb_clv; reflexivity). constructor; [constructor; cbn; try exact I; apply okb_clv; reflexivity|constructor]. Qed.
Lemma peer_clean : clean_cserver peer.
Proof. unfold peer. constructor; cbn; try (apply okb_clv; reflexivity). Qed.
Lemma hostile_plain : Forall plain_names hostile.
Proof.
  assert (K : forall b, forallb okc b = true -> one_line b) by (intros b H; apply one_line_clv, okb_clv, H).
  unfold hostile, two_users, link, login. cbn [app]. repeat (constructor; [first [exact I|apply K; reflexivity]|]). constructor.
Qed.
Example C08_nonvacuous : clean_conf conf0 /\ Forall clean_cserver [peer] /\ Forall plain_names hostile /\ runs conf0 [peer] hostile = true.
Proof.
  split; [exact conf0_clean|]. split; [constructor; [exact peer_clean|constructor]|]. split; [exact hostile_plain|]. vm_compute. reflexivity.
Qed.
Example C08_session : text_to 6 (B ":alice!~alice@1.2.3.4 PRIVMSG bob :one" ++ [CR; LF]) st_hostile = true
  /\ text_to 6 (B ":alice!~alice@1.2.3.4 PRIVMSG bob :two" ++ [CR; LF]) st_hostile = true
  /\ text_to 6 (B ":carol!carol@host.example.org PRIVMSG bob :four" ++ [CR; LF]) st_hostile = true
  /\ len_to 6 512 st_hostile = true.
Proof. repeat split; vm_compute; reflexivity. Qed.

Print Assumptions C08_legal_lines.
