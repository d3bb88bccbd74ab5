(** Specification vocabulary for commands and histories.  Nothing here refers
    to the model: commands are byte strings. *)
From Verif Require Export Spec.

Module SA.
Import S.
Definition cla (bs : list Z) := nth 0 bs 0.
Definition ins (bs : list Z) := nth 1 bs 0.
Definition p1 (bs : list Z) := nth 2 bs 0.
Definition p2 (bs : list Z) := nth 3 bs 0.
Definition payload (bs : list Z) := skipn 5 bs.

(** a command of this application *)
Definition command (bs : list Z) : bool := (cla bs =? 17) && (5 <=? len bs).
Definition signing (bs : list Z) : bool := command bs && ((ins bs =? 2) || (ins bs =? 3) || (ins bs =? 4)).
Definition address (bs : list Z) : bool := command bs && (ins bs =? 1).
(** first, intermediate and last chunk of a signing command *)
Definition initial (bs : list Z) : bool := signing bs && (p2 bs =? 0) && (p1 bs =? 0).
Definition chunk (bs : list Z) : bool := signing bs && (p2 bs =? 0) && ((p1 bs =? 1) || (p1 bs =? 2)).
Definition last_chunk (bs : list Z) : bool := signing bs && (p2 bs =? 0) && (p1 bs =? 2).

(** derivation path: five little-endian 32-bit words *)
Definition word (bs : list Z) (i : nat) : Z := value (firstn 4 (skipn (4 * i) bs)).
Definition path (bs : list Z) : list Z := map (word (payload bs)) [0; 1; 2; 3; 4]%nat.
Definition has_path (bs : list Z) : bool := (initial bs || address bs) && (20 <=? len (payload bs)).
(** m/44'/506'/... *)
Definition casper_path (p : list Z) : Prop :=
  nth 0 p 0 = 2 ^ 31 + 44 /\ nth 1 p 0 = 2 ^ 31 + 506.

(** status words *)
Definition ok := 36864.                 (* 9000 *)
Definition too_long := 27011.           (* 6983 *)
Definition no_session := 27015.         (* 6987 *)
Definition bad_data := 27012.           (* 6984 *)
Definition wrong_class := 28160.        (* 6E00 *)
Definition wrong_size := 26368.         (* 6700 *)
Definition wrong_ins := 27904.          (* 6D00 *)
Definition not_allowed := 27014.        (* 6986 *)
End SA.
