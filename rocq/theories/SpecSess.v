(** Specification vocabulary for signing sessions: byte strings only. *)
From Verif Require Export SpecApp SpecDeploy.

Module SS.
Import S SA.
(** a command of kind [i], chunk kind [k], payload [c] *)
Definition cmd (i k : Z) (c : list Z) : list Z := [17; i; k; 0; len c] ++ c.
(** a complete signing session: the path [p], the chunks [cs] and the last
    chunk [c] *)
Definition session (i : Z) (p : list Z) (cs : list (list Z)) (c : list Z) : list (list Z) :=
  cmd i 0 p :: map (cmd i 1) cs ++ [cmd i 2 c].
(** the derivation path made of the first twenty bytes of [p] *)
Definition words5 (p : list Z) : list Z := map (word p) [0; 1; 2; 3; 4]%nat.

(** A deploy of module code, up to the first byte of the code *)
Definition before_code (d : SD.deploy) (code : list Z) : list Z :=
  SD.enc_header (SD.d_header d) ++ SD.d_hash d ++ SD.enc_payment (SD.d_payment d) ++ 0 :: S.le 4 (S.len code).
End SS.
