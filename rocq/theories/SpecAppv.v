(** Independent specification: approvals as they lie in a buffer. *)
From Coq Require Import ZArith List.
From Verif Require Import Spec SpecLayout.
Import ListNotations S SL.
Open Scope Z_scope.

Module SV.
(** Bytes of a public key with its tag (0 is the system's, which has no key). *)
Definition key_bytes (t : Z) : Z := if t =? 0 then 1 else if t =? 1 then 33 else 34.
(** An approval at [p], the next one at [q]: a public key, then a signature of
    65 bytes with its tag.  Only the two tags need lie in the buffer. *)
Definition approval_at (d : list Z) (p q : Z) : Prop :=
  exists t s, here d p [t] /\ 0 <= t <= 2 /\ here d (p + key_bytes t) [s] /\ 1 <= s <= 2 /\ q = p + key_bytes t + 65.
(** [n] approvals from [p] to [q]. *)
Inductive approvals_at (d : list Z) : Z -> Z -> Z -> Prop :=
  no_approvals p : approvals_at d 0 p p
| an_approval n p q r : approval_at d p q -> approvals_at d n q r -> approvals_at d (n + 1) p r.
End SV.
