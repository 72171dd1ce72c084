(** Specification vocabulary for the clients of handles. *)
From Verif Require Import M_Base M_Text M_Pool M_S3Config.

(** The SDK: not initialised, initialised with clients that exist, shut down.  Clients may
    be constructed and destroyed only while it is initialised, none may be left when it
    is shut down, and it is initialised once. *)
Inductive sdk := Off | On (live : list nat) | Down.
Inductive sdk_step : sdk -> event -> sdk -> Prop :=
| sdk_init : sdk_step Off EInit (On [])
| sdk_create live id c : ~ In id live -> sdk_step (On live) (ECreate id c) (On (id :: live))
| sdk_destroy l1 l2 id : sdk_step (On (l1 ++ id :: l2)) (EDestroy id) (On (l1 ++ l2))
| sdk_shutdown : sdk_step (On []) EShutdown Down.
Inductive sdk_run : sdk -> list event -> sdk -> Prop :=
| sdk_nil x : sdk_run x [] x
| sdk_cons x e y es z : sdk_step x e y -> sdk_run y es z -> sdk_run x (e :: es) z.

(** No thread has anything left to do. *)
Definition all_returned (p : process) : Prop := Forall (fun t => t = (AtIdle, [])) (pr_threads p).
