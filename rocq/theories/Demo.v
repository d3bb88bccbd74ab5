(** Concrete data used by the examples that accompany the theorems. *)
From Verif Require Import Base Zxlib Crypto Utils Parser BaseFacts Spec Exec.
Import S.

(** A 32-byte checksum that depends on its input (not cryptographic): only
    used to show that hypotheses can be met; the theorems hold for every
    32-byte hash function. *)
Definition demo_hash (x : list Z) : list Z :=
  le 4 (fold_left (fun a b => (a * 31 + b + 7) mod 4294967296) x 1) ++ repeat 165 28.
Definition demo_time (t : Z) : option (list Z) := Some (str "2024-01-01T00:00:00").
Definition demo : platform := mkPlatform demo_hash demo_time 0.

(** Hash functions considered: 32 bytes of output. *)
Definition hash32 (H : list Z -> list Z) : Prop := forall x, zlen (H x) = 32 /\ bytes (H x).

Lemma demo_hash32 : hash32 (p_hash demo).
Proof.
  intros x; cbn [p_hash demo]; unfold demo_hash; split.
  - rewrite zlen_app, le_length. reflexivity.
  - apply bytes_app; split; [apply le_bytes|]. apply Forall_forall. intros b Hb.
    apply repeat_spec in Hb. subst; unfold byte; lia.
Qed.

Lemma wf_ctx pf x w kl data :
  hash32 (p_hash pf) -> bytes data -> zlen data < 65536 ->
  wf (ctx_of pf x w kl data (zlen data)).
Proof.
  intros Hh B L. constructor; cbn; auto; intros y; apply Hh.
Qed.

(** boolean version of [bytes], to check concrete lists *)
Definition bytesb (l : list Z) : bool := forallb (fun b => (0 <=? b) && (b <? 256)) l.
Lemma bytesb_ok l : bytesb l = true -> bytes l.
Proof.
  intros H. apply Forall_forall. intros b Hb. unfold bytesb in H.
  rewrite forallb_forall in H. specialize (H b Hb). unfold byte; lia.
Qed.

(** environment over the bytes [data] *)
Definition demo_env (data : list Z) : env := ctx_of demo true false 40 data (zlen data).
Lemma wf_demo data : bytesb data = true -> zlen data <? 65536 = true -> wf (demo_env data).
Proof. intros B L; apply wf_ctx; [apply demo_hash32 | apply bytesb_ok; auto | lia]. Qed.
