{
 "predefined_modes": "Lemma strtok_full : forall d t cur, Forall full (strtok_aux d t cur).\nProof.\n  induction t as [|a t IH]; intro cur; cbn [strtok_aux].\n  - destruct cur; constructor; [|constructor]. intro E. apply (f_equal (@List.length _)) in E. rewrite rev_length in E. discriminate.\n  - destruct (Ascii.eqb a d); [|apply IH]. destruct cur as [|c r]; [apply IH|]. constructor; [|apply IH]. intro E. apply (f_equal (@List.length _)) in E. rewrite rev_length in E. discriminate.\nQed.\nLemma firstn_full : forall n l, Forall full l -> Forall full (firstn n l).\nProof. induction n; intros l H; [constructor|]. destruct H; constructor; auto. Qed.\nLemma safe_predefined_modes : forall (ch : chandle) (cc : cchan), safe (predefined_modes ch cc).\nProof.\n  intros. unfold predefined_modes. apply safe_bind; [sf|]. intro me. apply safe_mfor. intro m.\n  pose proof (firstn_full 14 _ (strtok_full \" \" (strlcpy COMMAND_LEN m) [])) as F. fold (strtok \" \" (strlcpy COMMAND_LEN m)) in F.\n  destruct (firstn 14 _) as [|a r]; [sf|]. inversion F; subst. sf.\nQed.\n#[export] Hint Resolve safe_predefined_modes : safe.",
 "send_loop": "Lemma safe_send_loop : forall (client : handle) (from : handle) (forcetype : ctype) (errors : bool) (command : bytes) (message : bytes) (seen : list bytes) (targets : list bytes), safe (send_loop client from forcetype errors command message seen targets).\nProof.\n  intros client from forcetype errors command message seen targets. revert client from forcetype errors command message seen.\n  induction targets as [|t r IH]; intros; cbn [send_loop]; [sf|].\n  apply safe_bind; [sf|]. intros [[x|] c]; [sf|]. destruct r as [|n r]; [sf|].\n  apply safe_bind; [sf|]. intro. apply safe_bind; [sf|]. intro. apply safe_bind; [sf|]. intro. destruct (_ <=? _)%nat; [sf|]. apply IH.\nQed.\n#[export] Hint Resolve safe_send_loop : safe."
}