(** Specifications for what an INVITE command tells (C28, C29, C31). *)
From Coq Require Import List Ascii String ZArith NArith Bool.
From Verif Require Import Bytes Match Lists ParseReq State Monad Spec SpecMore SpecLink.
Import ListNotations.

(** the name [name] means this channel, or no channel at all *)
Definition means_chan (s : state) (name : bytes) (o : option (chandle * channel)) : Prop :=
  match o with Some (ch, k) => the_channel s name ch k | None => forall ch k, exists_chan s ch k -> ~ same_name name (ch_name k) end.
(** user [u] may invite user [g] (who is [e]) to what [name] means: everybody to a channel that does not exist; and
    only users of this server to channels of this server only *)
Definition invitable (s : state) (u g : handle) (e : client) (name : bytes) (o : option (chandle * channel)) : Prop :=
  (local_name name -> cl_conn e <> None) /\ match o with Some (ch, k) => may_invite s u g ch k | None => True end.
Definition invite_text (nick name : bytes) : bytes := B "INVITE " ++ nick ++ " "%char :: (if memb " "%char name then B ":" else []) ++ name.
