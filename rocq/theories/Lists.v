(** Model of src/ngircd/lists.c: lists of IRC masks (bans, excepts, invites, G-/K-lines). *)
From Coq Require Import List Ascii String ZArith Bool.
From Verif Require Import Bytes Match.
Import ListNotations.

Definition MASK_LEN : nat := 128.   (* src/ngircd/defines.h:130 *)

(** src/ngircd/lists.c:31-37 struct list_elem *)
Record lelem := mkLelem {
  le_mask : bytes;
  le_reason : option bytes;
  le_valid : Z;             (* 0: unlimited; t>0: until t *)
  le_once : bool
}.

(** The linked list, first element = head. *)
Definition mlist := list lelem.

(** src/ngircd/lists.c:256-267 Lists_CheckDupeMask *)
Definition Lists_CheckDupeMask (h : mlist) (mask : bytes) : option lelem :=
  find (fun e => caseeq (le_mask e) mask) h.

(** src/ngircd/lists.c:135-144: update of the first element with an equal mask. *)
Fixpoint upd_first (mask : bytes) (valid : Z) (reason : option bytes) (h : mlist) : mlist :=
  match h with
  | [] => []
  | e :: r =>
      if caseeq (le_mask e) mask
      then mkLelem (le_mask e) (match reason with Some _ => reason | None => le_reason e end)
                   valid (le_once e) :: r
      else e :: upd_first mask valid reason r
  end.

(** src/ngircd/lists.c:126-170 Lists_Add (malloc/strdup never fail). *)
Definition Lists_Add (h : mlist) (mask : bytes) (valid : Z) (reason : option bytes) (once : bool) : mlist :=
  match Lists_CheckDupeMask h mask with
  | Some _ => upd_first mask valid reason h
  | None => mkLelem (strlcpy MASK_LEN mask) reason valid once :: h
  end.

(** src/ngircd/lists.c:202-223 Lists_Del *)
Fixpoint Lists_Del (h : mlist) (mask : bytes) : mlist :=
  match h with
  | [] => []
  | e :: r => if caseeq (le_mask e) mask then Lists_Del r mask else e :: Lists_Del r mask
  end.

(** src/ngircd/lists.c:230-247 Lists_Free *)
Definition Lists_Free (h : mlist) : mlist := [].

(** src/ngircd/lists.c:276-308 Lists_MakeMask; [len] = size of the target buffer.
    [at < excl] with excl == NULL is false.  Note: when an '@' precedes the '!', excl is
    set to NULL and the part behind the first '@' is used as host. *)
Definition Lists_MakeMask (Pattern : bytes) (len : nat) : bytes :=
  let excl := strchr "!" Pattern in
  let at_ := strchr "@" Pattern in
  let excl := match at_, excl with
              | Some (pa, _), Some (pe, _) => if List.length pa <? List.length pe then None else excl
              | _, _ => excl
              end in
  match at_, excl with
  | None, None => strlcat len (strlcpy (len - 5) Pattern) (B "!*@*")
  | None, Some _ => strlcat len (strlcpy (len - 3) Pattern) (B "@*")
  | Some (pre, rest), None =>
      strlcat len (strlcat len (strlcpy (len - 5) pre) (B "!*@")) (tl rest)
  | Some _, Some _ => strlcpy len Pattern
  end.

(** Does an entry match a client with the given (cloaked and real) masks?
    src/ngircd/lists.c:344 *)
Definition le_match (e : lelem) (cloaked real : bytes) : bool :=
  MatchCaseInsensitive (le_mask e) cloaked || MatchCaseInsensitive (le_mask e) real.

(** src/ngircd/lists.c:332-360 Lists_CheckReason: [Some reason] when listed, and the
    list afterwards.  The reason buffer is only written when the entry has a reason;
    [Some None]/[Some (Some r)] distinguish the two. *)
Fixpoint Lists_CheckReason (h : mlist) (cloaked real : bytes) : option (option bytes) * mlist :=
  match h with
  | [] => (None, [])
  | e :: r =>
      if le_match e cloaked real
      then (Some (le_reason e), if le_once e then r else e :: r)
      else let '(res, r') := Lists_CheckReason r cloaked real in (res, e :: r')
  end.

(** src/ngircd/lists.c:317-321 Lists_Check *)
Definition Lists_Check (h : mlist) (cloaked real : bytes) : bool * mlist :=
  let '(r, h') := Lists_CheckReason h cloaked real in
  (match r with Some _ => true | None => false end, h').

(** src/ngircd/lists.c:381: test for an expired entry. *)
Definition le_expired (now : Z) (e : lelem) : bool :=
  ((0 <? le_valid e) && (le_valid e <? now))%Z.

(** src/ngircd/lists.c:367-398 Lists_Expire: remaining list and removed entries (in
    order; one log message per removed entry). *)
Fixpoint Lists_Expire (now : Z) (h : mlist) : mlist * list lelem :=
  match h with
  | [] => ([], [])
  | e :: next =>
      let '(keep, del) := Lists_Expire now next in
      if le_expired now e then (keep, e :: del) else (e :: keep, del)
  end.

(** src/ngircd/lists.c:406-420 Lists_Count *)
Definition Lists_Count (h : mlist) : nat := List.length h.
