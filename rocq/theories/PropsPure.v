(** Property theorems about the stateless parts (C01-C06, C34, C39, C42). *)
From Coq Require Import List Ascii String ZArith NArith Bool Lia Arith.
From Verif Require Import Bytes Strl Array Match MatchSpec MatchProofs MatchList Hash Lists ListsProofs ParseReq ParseProofs.
Import ListNotations.

(** ** C01 *)
Theorem C01_match_exact : forall p t, no_backslash p -> no_double_star_end p ->
  (Match p t = true <-> glob p t).
Proof. exact Match_exact. Qed.
Print Assumptions C01_match_exact.

Theorem C01_match_case_insensitive_exact : forall p t,
  List.length p < 513 -> List.length t < 513 -> no_backslash p -> no_double_star_end p ->
  (MatchCaseInsensitive p t = true <-> globi p t).
Proof. exact MatchCI_exact. Qed.
Print Assumptions C01_match_case_insensitive_exact.

(** No false positives, without any side condition: a ban never hits a mask outside of its language. *)
Theorem C01_match_sound : forall p t, Match p t = true -> glob p t.
Proof. exact Match_sound. Qed.
Print Assumptions C01_match_sound.

Theorem C01_match_case_insensitive_sound : forall p t,
  MatchCaseInsensitive p t = true -> globi (firstn 512 p) (firstn 512 t).
Proof. exact MatchCI_sound. Qed.
Print Assumptions C01_match_case_insensitive_sound.

(** Without the side conditions completeness fails: two stars at the end of the pattern... *)
Theorem C01_double_star_end_refuted : exists p t, glob p t /\ Match p t = false /\ no_backslash p.
Proof.
  exists (B "a**"), (B "a"). split; [|split].
  - constructor; try discriminate. apply (glob_star []). apply (glob_star []). constructor.
  - vm_compute. reflexivity.
  - intro X. apply memb_In in X. vm_compute in X. discriminate.
Qed.
Print Assumptions C01_double_star_end_refuted.

(** ... and a backslash behind a star. *)
Theorem C01_backslash_refuted : exists p t, glob p t /\ Match p t = false /\ no_double_star_end p.
Proof.
  exists (B "*\a"), (B "x\a"). split; [|split].
  - apply (glob_star (B "x") (B "\a") (B "\a")). repeat (constructor; try discriminate).
  - vm_compute. reflexivity.
  - intros q E. apply (f_equal (@List.rev ascii)) in E. rewrite rev_app_distr in E. vm_compute in E. discriminate.
Qed.
Print Assumptions C01_backslash_refuted.

(** Lists of patterns, separated by one character (the service masks of linked servers): a text matches iff it is in
    the language of one of the parts, without the blanks around it *)
Theorem C01_list_exact : forall l t sep, List.length l < 513 -> List.length t < 513 -> no_backslash l -> (forall e m, entry_of sep l e -> stripped e m -> no_double_star_end m) ->
  (MatchCaseInsensitiveList l t sep = true <-> exists e m, entry_of sep l e /\ stripped e m /\ globi m t).
Proof. exact list_exact. Qed.
Print Assumptions C01_list_exact.
Theorem C01_list_sound : forall l t sep, MatchCaseInsensitiveList l t sep = true -> exists e m, entry_of sep (firstn 512 l) e /\ stripped e m /\ globi m (firstn 512 t).
Proof. exact list_sound. Qed.
Print Assumptions C01_list_sound.
Example C01_list_nonvacuous : no_backslash (B "NickServ, *Serv ,,x*") /\ entry_of "," (B "NickServ, *Serv ,,x*") (B " *Serv ") /\ stripped (B " *Serv ") (B "*Serv") /\
  (forall e m, entry_of "," (B "NickServ, *Serv ,,x*") e -> stripped e m -> no_double_star_end m) /\
  MatchCaseInsensitiveList (B "NickServ, *Serv ,,x*") (B "ChanServ") "," = true /\ MatchCaseInsensitiveList (B "NickServ, *Serv ,,x*") (B "ChanServe") "," = false.
Proof.
  split; [intro X; apply memb_In in X; vm_compute in X; discriminate|]. split; [|split; [|split; [|split; vm_compute; reflexivity]]].
  - apply strtok_entry. vm_compute. right. left. reflexivity.
  - apply stripped_trim. vm_compute. reflexivity.
  - intros e m I S. apply stripped_trim in S. subst m. apply strtok_entry in I.
    vm_compute in I. destruct I as [<- |[<- |[<- |[]]]]; intros q E; apply (f_equal (@List.rev ascii)) in E; rewrite rev_app_distr in E; vm_compute in E; discriminate.
Qed.

Example C01_nonvacuous :
  no_backslash (B "*!*@*.evil?.Org") /\ no_double_star_end (B "*!*@*.evil?.Org") /\
  MatchCaseInsensitive (B "*!*@*.evil?.Org") (B "Bob!~b@host.EVIL1.org") = true /\
  MatchCaseInsensitive (B "*!*@*.evil?.Org") (B "Bob!~b@host.EVIL.org") = false.
Proof.
  split; [|split; [|split]]; try (vm_compute; reflexivity).
  - intro X. apply memb_In in X. vm_compute in X. discriminate.
  - intros q E. apply (f_equal (@List.rev ascii)) in E. rewrite rev_app_distr in E. vm_compute in E. discriminate.
Qed.

(** ** C02 *)
Theorem C02_strlcpy : forall dst src s size,
  cstr src = Some s -> 0 < size -> size <= List.length dst ->
  exists dst', strlcpy_mem dst src size = Some (List.length s, dst')
    /\ List.length dst' = List.length dst
    /\ cstr dst' = Some (firstn (size - 1) s)
    /\ skipn size dst' = skipn size dst.
Proof. exact strlcpy_mem_ok. Qed.
Print Assumptions C02_strlcpy.

Theorem C02_strlcat : forall dst src d s size,
  cstr dst = Some d -> cstr src = Some s -> List.length d < size -> size <= List.length dst ->
  exists dst', strlcat_mem dst src size = Some (List.length d + List.length s, dst')
    /\ List.length dst' = List.length dst
    /\ cstr dst' = Some (firstn (size - 1) (d ++ s))
    /\ skipn size dst' = skipn size dst.
Proof. exact strlcat_mem_ok. Qed.
Print Assumptions C02_strlcat.

(** The functions on strings used in the rest of the model agree with the memory-level ones. *)
Theorem C02_strlcpy_refines : forall dst src s size n dst',
  cstr src = Some s -> 0 < size -> size <= List.length dst ->
  strlcpy_mem dst src size = Some (n, dst') -> cstr dst' = Some (strlcpy size s).
Proof. exact strlcpy_refines. Qed.
Print Assumptions C02_strlcpy_refines.

Theorem C02_strlcat_refines : forall dst src d s size n dst',
  cstr dst = Some d -> cstr src = Some s -> List.length d < size -> size <= List.length dst ->
  strlcat_mem dst src size = Some (n, dst') -> cstr dst' = Some (strlcat size d s).
Proof. exact strlcat_refines. Qed.
Print Assumptions C02_strlcat_refines.

Example C02_nonvacuous :
  strlcpy_mem (B "xxxxxx") (B "hello" ++ [NUL]) 4 = Some (5, B "hel" ++ NUL :: B "xx") /\
  strlcat_mem (B "ab" ++ NUL :: B "xxxx") (B "cdef" ++ [NUL]) 5 = Some (6, B "abcd" ++ NUL :: B "xx").
Proof. vm_compute. auto. Qed.

(** ** C03 *)
Theorem C03_no_duplicates_ever : forall ops, Forall lop_valid ops -> list_ok (fold_left lop_run ops []).
Proof. exact lists_history_ok. Qed.
Print Assumptions C03_no_duplicates_ever.

Theorem C03_add : forall h m v r o, List.length m < 128 ->
  entry (Lists_Add h m v r o) m =
    Some match entry h m with
         | None => mkLelem m r v o
         | Some e => mkLelem (le_mask e) (match r with Some _ => r | None => le_reason e end) v (le_once e)
         end.
Proof. exact Lists_Add_entry. Qed.
Print Assumptions C03_add.

Theorem C03_add_others_unchanged : forall h m m' v r o, List.length m < 128 -> caseeq m m' = false ->
  entry (Lists_Add h m v r o) m' = entry h m'.
Proof. exact Lists_Add_other. Qed.
Print Assumptions C03_add_others_unchanged.

Theorem C03_delete : forall h m m',
  entry (Lists_Del h m) m' = if caseeq m m' then None else entry h m'.
Proof. exact Lists_Del_entry. Qed.
Print Assumptions C03_delete.

Theorem C03_check : forall h c r, fst (Lists_Check h c r) = existsb (fun e => le_match e c r) h.
Proof. exact Lists_Check_listed. Qed.
Print Assumptions C03_check.

Theorem C03_check_keeps_list : forall h c r,
  (forall e, find (fun e => le_match e c r) h = Some e -> le_once e = true ->
     exists h1 h2, h = h1 ++ e :: h2 /\ snd (Lists_Check h c r) = h1 ++ h2) /\
  (forall e, find (fun e => le_match e c r) h = Some e -> le_once e = false -> snd (Lists_Check h c r) = h) /\
  (find (fun e => le_match e c r) h = None -> snd (Lists_Check h c r) = h).
Proof. exact Lists_Check_after. Qed.
Print Assumptions C03_check_keeps_list.

Theorem C03_check_reason : forall h c r,
  fst (Lists_CheckReason h c r) = match find (fun e => le_match e c r) h with
                                  | Some e => Some (le_reason e) | None => None end.
Proof. exact Lists_CheckReason_first. Qed.
Print Assumptions C03_check_reason.

Example C03_nonvacuous :
  let ops := [LAdd (B "bob!*@*") 0 None false; LAdd (B "al!*@*") 100 None true; LAdd (B "BOB!*@*") 7 (Some (B "x")) true] in
  Forall lop_valid ops /\
  fold_left lop_run ops [] = [mkLelem (B "al!*@*") None 100 true; mkLelem (B "bob!*@*") (Some (B "x")) 7 false] /\
  snd (Lists_Check (fold_left lop_run ops []) (B "al!a@b") (B "al!a@b")) = [mkLelem (B "bob!*@*") (Some (B "x")) 7 false].
Proof.
  split; [|split; vm_compute; reflexivity].
  repeat constructor; cbn [lop_valid]; unfold MASK_LEN; apply Nat.ltb_lt; vm_compute; reflexivity.
Qed.

(** ** C04 *)
Theorem C04_mask_shape_partial : forall p, List.length p <= 122 -> full_mask (Lists_MakeMask p MASK_LEN).
Proof. exact MakeMask_complete. Qed.
Print Assumptions C04_mask_shape_partial.

Theorem C04_mask_length : forall p, List.length (Lists_MakeMask p MASK_LEN) < 128.
Proof. exact MakeMask_length. Qed.
Print Assumptions C04_mask_length.

Theorem C04_full_mask_unchanged : forall m, full_mask m -> List.length m < 128 -> Lists_MakeMask m MASK_LEN = m.
Proof. exact MakeMask_full. Qed.
Print Assumptions C04_full_mask_unchanged.

Theorem C04_nick_mask : forall n, ~ In "!"%char n -> ~ In "@"%char n -> List.length n <= 122 ->
  Lists_MakeMask n MASK_LEN = n ++ B "!*@*".
Proof. exact MakeMask_nick. Qed.
Print Assumptions C04_nick_mask.

Theorem C04_nick_user_mask : forall n u, ~ In "!"%char n -> ~ In "@"%char n -> ~ In "@"%char u ->
  List.length n + List.length u <= 123 ->
  Lists_MakeMask (n ++ "!"%char :: u) MASK_LEN = n ++ "!"%char :: u ++ B "@*".
Proof. exact MakeMask_nick_user. Qed.
Print Assumptions C04_nick_user_mask.

Theorem C04_user_host_mask : forall u h, ~ In "!"%char u -> ~ In "@"%char u ->
  List.length u + List.length h <= 124 -> List.length u <= 122 ->
  Lists_MakeMask (u ++ "@"%char :: h) MASK_LEN = u ++ B "!*@" ++ h.
Proof. exact MakeMask_user_host. Qed.
Print Assumptions C04_user_host_mask.

(** The unrestricted claim is false: truncation can remove the '!'. *)
Theorem C04_long_mask_refuted : exists p, List.length p = 125 /\ ~ full_mask (Lists_MakeMask p MASK_LEN).
Proof. exact MakeMask_long_bad. Qed.
Print Assumptions C04_long_mask_refuted.

Example C04_nonvacuous : Lists_MakeMask (B "bob") MASK_LEN = B "bob!*@*" /\
  Lists_MakeMask (B "b*!~x") MASK_LEN = B "b*!~x@*" /\ Lists_MakeMask (B "u@h.org") MASK_LEN = B "u!*@h.org" /\
  Lists_MakeMask (B "n!u@h") MASK_LEN = B "n!u@h".
Proof. vm_compute. auto. Qed.

(** ** C05 *)
Theorem C05_equal_names_equal_hash : forall a b, caseeq a b = true -> Hash a = Hash b.
Proof. exact Hash_case. Qed.
Print Assumptions C05_equal_names_equal_hash.

Example C05_nonvacuous : caseeq (B "#ChanneL") (B "#chANnel") = true /\ Hash (B "#ChanneL") <> Hash (B "#chanel").
Proof. vm_compute. split; [reflexivity|discriminate]. Qed.

(** ** C06 *)
Theorem C06_at_most_15_parameters : forall l rq, parse_line l = Some rq -> List.length (rq_args rq) <= 15.
Proof. exact parse_line_max15. Qed.
Print Assumptions C06_at_most_15_parameters.

Theorem C06_roundtrip : forall prefix cmd ms tr,
  (forall p, prefix = Some p -> ~ In SP p) -> middle cmd -> Forall middle ms ->
  List.length (params ms tr) <= 15 ->
  parse_line (render prefix cmd ms tr) = Some (mkReq prefix cmd (params ms tr)).
Proof. exact parse_render. Qed.
Print Assumptions C06_roundtrip.

Theorem C06_middle_parameters : forall l rq i a, parse_line l = Some rq ->
  nth_error (rq_args rq) i = Some a -> S i < List.length (rq_args rq) -> ~ In SP a /\ hd0 a <> ":"%char.
Proof. exact parse_line_middles. Qed.
Print Assumptions C06_middle_parameters.

Example C06_nonvacuous :
  parse_line (B ":bob!~b@host  PRIVMSG   #chan :hello : world") =
    Some (mkReq (Some (B "bob!~b@host")) (B "PRIVMSG") [B "#chan"; B "hello : world"]) /\
  render (Some (B "bob")) (B "MODE") [B "#c"; B "+o"; B "al"] None = B ":bob MODE #c +o al" /\
  middle (B "MODE").
Proof.
  split; [vm_compute; reflexivity|]. split; [vm_compute; reflexivity|].
  split; [discriminate|]. split; [|discriminate]. intro X. apply memb_In in X. vm_compute in X. discriminate.
Qed.

(** ** C34 *)
Theorem C34_any_operation_sequence : forall l a, arr_ok a -> Forall aop_valid l ->
  exists a', aops a l = Res a' /\ arr_ok a'.
Proof. exact aops_ok. Qed.
Print Assumptions C34_any_operation_sequence.

Theorem C34_append : forall ok a src, arr_ok a -> (len src < SIZE)%N ->
  exists a' r, array_catb ok a src = Res (a', r) /\ arr_ok a' /\
    (r = true -> content a' = content a ++ src) /\
    (r = false -> a' = a) /\
    (r = false -> ok = false \/ (SIZE <= a_used a + len src + 1)%N) /\
    (r = true -> src <> [] -> (a_used a' < a_alloc a')%N).
Proof. exact array_catb_correct. Qed.
Print Assumptions C34_append.

Theorem C34_copy : forall ok a src, arr_ok a -> (len src < SIZE)%N ->
  exists a' r, array_copyb ok a src = Res (a', r) /\ arr_ok a' /\
    (r = true -> content a' = src) /\ (r = false -> content a' = []).
Proof. exact array_copyb_correct. Qed.
Print Assumptions C34_copy.

Theorem C34_moveleft : forall a ms pos, arr_ok a -> (0 < ms < SIZE)%N -> (pos < SIZE)%N ->
  exists a', array_moveleft a ms pos = Res a' /\ arr_ok a' /\ content a' = drop (ms * pos) (content a).
Proof. exact array_moveleft_correct. Qed.
Print Assumptions C34_moveleft.

Theorem C34_truncate : forall a ms n, arr_ok a -> (ms < SIZE)%N -> (n < SIZE)%N ->
  arr_ok (array_truncate a ms n) /\
  ((ms * n <= a_used a)%N -> content (array_truncate a ms n) = take (ms * n) (content a)) /\
  ((a_alloc a < ms * n)%N -> array_truncate a ms n = a).
Proof. exact array_truncate_correct. Qed.
Print Assumptions C34_truncate.

Theorem C34_get_inside_block : forall a ms pos, arr_ok a -> (0 < ms < SIZE)%N -> (pos < SIZE)%N ->
  exists r, array_get a ms pos = Res r /\
    (forall off, r = Some off -> off = (pos * ms)%N /\ (off + ms <= len (mem0 a))%N) /\
    (((pos + 1) * ms <= a_used a)%N -> r = Some (pos * ms)%N).
Proof. exact array_get_inside. Qed.
Print Assumptions C34_get_inside_block.

Theorem C34_length : forall a ms, arr_ok a -> (0 < ms)%N -> array_length a ms = Res (len (content a) / ms)%N.
Proof. exact array_length_correct. Qed.
Print Assumptions C34_length.

Theorem C34_temporary_nul_partial : forall ok a, arr_ok a -> (a_used a < a_alloc a)%N ->
  exists a', array_cat0_temporary ok a = Res (a', true) /\ arr_ok a' /\ content a' = content a
    /\ take (a_used a + 1) (mem0 a') = content a ++ [NUL].
Proof. exact array_cat0_temporary_correct. Qed.
Print Assumptions C34_temporary_nul_partial.

(** "append trailing NUL byte to array, but do not count it" is false for an array without spare
    room, e.g. a fresh one: the byte is counted. *)
Theorem C34_temporary_nul_refuted : exists a a', arr_ok a /\
  array_cat0_temporary true a = Res (a', true) /\ content a' <> content a.
Proof.
  exists array_init, (mkArray (Some [NUL]) 1 1). split; [|split].
  - unfold arr_ok, array_init, SIZE; simpl. lia.
  - vm_compute. reflexivity.
  - vm_compute. discriminate.
Qed.
Print Assumptions C34_temporary_nul_refuted.

(** "In that case dest is left unchanged" (array.h) is false for the copy functions. *)
Theorem C34_failed_copy_refuted : exists a a' src, arr_ok a /\
  array_copyb false a src = Res (a', false) /\ content a' <> content a.
Proof.
  exists (mkArray (Some (B "ab")) 2 1), (mkArray (Some (B "ab")) 2 0), (B "xyz"). split; [|split].
  - unfold arr_ok, SIZE; simpl. unfold len; simpl. lia.
  - vm_compute. reflexivity.
  - vm_compute. discriminate.
Qed.
Print Assumptions C34_failed_copy_refuted.

(** array_get does not return NULL for elements beyond the stored ones. *)
Theorem C34_get_beyond_used_refuted : exists a pos, arr_ok a /\
  array_length a 1 = Res pos /\ array_get a 1 pos = Res (Some pos).
Proof.
  exists (mkArray (Some (B "abc")) 3 1), 1%N. split; [|split; vm_compute; reflexivity].
  unfold arr_ok, SIZE; simpl. unfold len; simpl. lia.
Qed.
Print Assumptions C34_get_beyond_used_refuted.

Example C34_nonvacuous :
  Forall aop_valid [OCatb true (B "hello"); OCat0Temp true; OMoveleft 1 2; OCatb true (B "!!"); OTruncate 1 4] /\
  exists a, aops array_init [OCatb true (B "hello"); OCat0Temp true; OMoveleft 1 2; OCatb true (B "!!"); OTruncate 1 4] = Res a
    /\ content a = B "llo!".
Proof.
  split; [repeat constructor; cbn [aop_valid]; unfold len, SIZE; simpl; lia|].
  eexists. split; vm_compute; reflexivity.
Qed.

(** ** C39 *)
Theorem C39_expire : forall now h,
  fst (Lists_Expire now h) = filter (fun e => negb ((0 <? le_valid e) && (le_valid e <? now))%Z) h /\
  snd (Lists_Expire now h) = filter (fun e => (0 <? le_valid e) && (le_valid e <? now))%Z h.
Proof. exact Lists_Expire_filter. Qed.
Print Assumptions C39_expire.

Theorem C39_expire_entries : forall now h m, list_ok h ->
  entry (fst (Lists_Expire now h)) m =
    match entry h m with
    | Some e => if le_expired now e then None else Some e
    | None => None
    end.
Proof. exact Lists_Expire_entry. Qed.
Print Assumptions C39_expire_entries.

(** ** C42 *)
Theorem C42_scrub_ctcp_partial : forall head text, ~ In ":"%char head ->
  (ScrubCTCP (head ++ ":"%char :: text) = true /\ head <> [] <->
   head <> [] /\ starts_with [SOH] text /\ ~ starts_with (SOH :: B "ACTION ") text).
Proof. exact ScrubCTCP_exact. Qed.
Print Assumptions C42_scrub_ctcp_partial.

(** CTCP requests get around the filter: without the colon in front of the text, or with a
    colon in an earlier part of the line (prefix with an IPv6 address, target). *)
Theorem C42_scrub_ctcp_bypass_refuted : exists line rq,
  ScrubCTCP line = false /\ parse_line line = Some rq /\
  rq_command rq = B "PRIVMSG" /\ rq_args rq = [B "bob"; SOH :: B "VERSION" ++ [SOH]].
Proof.
  exists (B "PRIVMSG bob " ++ SOH :: B "VERSION" ++ [SOH]). eexists.
  split; [vm_compute; reflexivity|]. split; [vm_compute; reflexivity|]. split; reflexivity.
Qed.
Print Assumptions C42_scrub_ctcp_bypass_refuted.

Example C42_nonvacuous :
  ScrubCTCP (B "PRIVMSG bob :" ++ SOH :: B "VERSION" ++ [SOH]) = true /\
  ScrubCTCP (B "PRIVMSG bob :" ++ SOH :: B "ACTION waves" ++ [SOH]) = false /\
  ScrubCTCP (B "PRIVMSG bob :hello") = false.
Proof. vm_compute. auto. Qed.
