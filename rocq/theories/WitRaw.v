(** Concrete deploys whose sessions do not have the arguments they announce. *)
From Verif Require Import Base Zxlib Crypto Utils RuntimeArg Deploy DeployUI TxV1 TxV1UI Parser BaseFacts Spec SpecText SpecDeploy SpecLayout SpecRaw Exec ArgsFacts ReaderFacts TextFacts Demo ReviewFacts DeployCases WitDeploy BindCases WitBind WitMore RawFacts RawShow.
Import S ST SD.

(** Two arguments announced: the amount, and one of type Option(List(...)).
    Two more follow, which the device parses instead. *)
Definition name30 : list Z := repeat 120 30.
Definition deep_args : list Z :=
  enc_arg arg_amount ++ lv (text "x") ++ lv [0] ++ [13; 14] ++ enc_arg (Arg name30 [0] (Prim 3)) ++ enc_arg (Arg name30 [0] (Prim 3)).
Definition deep_sess : list Z := 5 :: le 4 2 ++ deep_args.
Definition deep_tx : list Z := raw_tx 0 [] (enc_payment demo_pay) deep_sess.
Lemma deep_ok x : raw_ok x deep_tx = true.
Proof. destruct x; vm_compute; reflexivity. Qed.
Lemma lv_eq a b r r' : zlen a < 2 ^ 32 -> zlen b < 2 ^ 32 -> lv a ++ r = lv b ++ r' -> a = b /\ r = r'.
Proof.
  intros La Lb E. unfold lv in E. change (@S.len Z) with (@zlen Z) in E. rewrite <- !app_assoc in E. pose proof (zlen_nonneg a). pose proof (zlen_nonneg b).
  destruct (app_inj_len _ _ _ _ E) as [E1 E2]; [apply zlen_nat; rewrite !le_length; reflexivity|].
  assert (Z1 : zlen a = zlen b) by (rewrite <- (value_le 4 (zlen a)), <- (value_le 4 (zlen b)), E1 by (cbn; lia); reflexivity).
  exact (app_inj_len _ _ _ _ E2 (zlen_nat _ _ Z1)).
Qed.
Lemma zlen_le_app {A} (a b : list A) : zlen a <= zlen (a ++ b).
Proof. rewrite zlen_app. pose proof (zlen_nonneg b). lia. Qed.
Lemma arg_min a : 9 <= zlen (enc_arg a).
Proof.
  unfold enc_arg, lv. rewrite !zlen_app, !le_length. pose proof (zlen_nonneg (a_name a)). pose proof (zlen_nonneg (a_val a)).
  assert (1 <= zlen (enc_type (a_ty a))). { destruct (a_ty a); cbn [enc_type]; rewrite zlen_cons; match goal with |- 1 <= 1 + zlen ?x => pose proof (zlen_nonneg x); lia end. }
  lia.
Qed.
Lemma args_min l : 9 * zlen l <= zlen (enc_arg_list l).
Proof. induction l as [|a l IH]; [cbn; lia|]. rewrite enc_arg_list_cons, zlen_cons, zlen_app. pose proof (arg_min a). lia. Qed.
Lemma deep_not i : deep_sess <> enc_session i.
Proof.
  destruct i as [w l|t ep l|l]; cbn [enc_session].
  - discriminate.
  - destruct t; discriminate.
  - unfold deep_sess, enc_args. intros E0. assert (E : le 4 2 ++ deep_args = le 4 (S.len l) ++ enc_arg_list l) by (apply (f_equal (@List.tl Z)) in E0; exact E0). clear E0.
    assert (Zl : zlen (le 4 (S.len l) ++ enc_arg_list l) = zlen (le 4 2 ++ deep_args)) by (rewrite <- E; reflexivity).
    assert (Zd : zlen (le 4 2 ++ deep_args) = 116) by (vm_compute; reflexivity). rewrite Zd, zlen_app, le_length in Zl. pose proof (args_min l). pose proof (zlen_nonneg l).
    destruct (app_inj_len _ _ _ _ E) as [E1 E2]; [apply zlen_nat; rewrite !le_length; reflexivity|].
    assert (Z2 : zlen l = 2).
    { change (S.len l) with (zlen l) in E1. rewrite <- (value_le 4 (zlen l)), <- E1 by (cbn; lia). reflexivity. }
    destruct l as [|a [|b [|c l]]]; [discriminate Z2|discriminate Z2| |rewrite !zlen_cons in Z2; pose proof (zlen_nonneg l); lia]. clear E E1 Z2 Zd.
    rewrite !enc_arg_list_cons in *. cbn [enc_arg_list flat_map map List.concat] in *. rewrite app_nil_r in *.
    unfold deep_args in E2. unfold enc_arg at 1 4 5 in E2. rewrite <- !app_assoc in E2.
    assert (Sm : forall u v w : list Z, zlen (u ++ v) = 112 -> zlen u <= 112) by (intros u v _ Zu; rewrite zlen_app in Zu; pose proof (zlen_nonneg v); lia).
    rewrite zlen_app in Zl. pose proof (arg_min a). pose proof (arg_min b).
    assert (Na : forall c, zlen (enc_arg c) <= 112 -> zlen (a_name c) < 2 ^ 32 /\ zlen (a_val c) < 2 ^ 32).
    { intros c0 Lc. unfold enc_arg, lv in Lc. rewrite !zlen_app, !le_length in Lc. pose proof (zlen_nonneg (a_name c0)). pose proof (zlen_nonneg (a_val c0)). pose proof (zlen_nonneg (enc_type (a_ty c0))). lia. }
    destruct (Na a ltac:(lia)) as [Na1 Na2]. destruct (Na b ltac:(lia)) as [Nb1 Nb2].
    apply lv_eq in E2; [|vm_compute; reflexivity|assumption]. destruct E2 as [_ E2].
    apply lv_eq in E2; [|vm_compute; reflexivity|assumption]. destruct E2 as [_ E2].
    assert (E3 : enc_type (a_ty a) = [8]) by (destruct (a_ty a); cbn [enc_type] in E2 |- *; try discriminate E2; injection E2 as <- _; reflexivity).
    rewrite E3 in E2. cbn [enc_type a_ty arg_amount app] in E2. apply (f_equal (@List.tl Z)) in E2. cbn [List.tl] in E2.
    apply lv_eq in E2; [|vm_compute; reflexivity|assumption]. destruct E2 as [_ E2].
    apply lv_eq in E2; [|vm_compute; reflexivity|assumption]. destruct E2 as [_ E2].
    destruct (a_ty b) as [g|t| | | | | | | ]; try discriminate E2. cbn [enc_type] in E2. injection E2 as E2.
    destruct t as [g|t|t| | | | | | ]; try discriminate E2. cbn [enc_type] in E2. injection E2 as E2.
    destruct t; discriminate E2.
Qed.
Lemma not_a_deploy : exists pf x data v hdr dh pay ses rest, hash32 (p_hash pf) /\ bytes data /\ zlen data < 65472 /\ SL.no_leap data /\
  tx_parse pf x (0 :: data) = Ret (TDeploy v) /\ data = hdr ++ dh ++ pay ++ ses ++ rest /\ zlen dh = 32 /\ p_hash pf hdr = dh /\
  zlen (hdr ++ dh ++ pay ++ ses) = snd (parse_content 0 (ctx_of pf x false 40 data (zlen data)) 0) /\
  pay = enc_payment demo_pay /\ forall i, ses <> enc_session i.
Proof.
  destruct (raw_ok_ok _ _ (deep_ok true)) as (B & L & v & P). 
  set (body := enc_payment demo_pay ++ deep_sess).
  set (hdr := [1] ++ demo_key ++ le 8 1700000000000 ++ le 8 1800000 ++ le 8 1 ++ demo_hash body ++ le 4 0 ++ [] ++ lv (text "casper")).
  exists demo, true, deep_tx, v, hdr, (demo_hash hdr), (enc_payment demo_pay), deep_sess, (le 4 0).
  split; [exact demo_hash32|]. split; [exact B|]. split; [vm_compute; reflexivity|]. split; [apply no_ff_leap; vm_compute; reflexivity|]. split; [exact P|].
  split; [unfold deep_tx, raw_tx; cbv zeta; fold body; fold hdr; unfold body; rewrite <- !app_assoc; reflexivity|].
  split; [apply demo_hash32|]. split; [reflexivity|]. split; [vm_compute; reflexivity|]. split; [reflexivity|]. exact deep_not.
Qed.
Lemma session_case x : exists v, bytes plain_tx /\ zlen plain_tx < 65472 /\ SL.no_leap plain_tx /\ tx_parse demo x (0 :: plain_tx) = Ret (TDeploy v).
Proof.
  destruct (raw_ok_ok _ _ (plain_ok x)) as (B & L & v & P). exists v. split; [exact B|]. split; [vm_compute; reflexivity|]. split; [apply no_ff_leap; vm_compute; reflexivity|exact P].
Qed.
(** A map from names to optional byte arrays, behind one byte. *)
Lemma type_case : exists e o, wf e /\ 0 <= o < 65536 /\ exists ty, SR.type_bytes ty /\ SL.here (mem e) o ty /\ 1 < zlen ty.
Proof.
  exists (ctx_of demo true false 40 [7; 17; 10; 13; 15; 32; 0; 0; 0; 9] 10), 1. split; [|split; [lia|]].
  - constructor; cbn; auto; try lia; [repeat constructor; lia|intros y; apply demo_hash32].
  - exists [17; 10; 13; 15; 32; 0; 0; 0]. split; [|split; [exists [7], [9]; split; reflexivity|reflexivity]].
    apply (SR.t_map 10 13 [] [15; 32; 0; 0; 0]); [apply SR.f_simple; unfold SR.simple; lia|].
    apply SR.f_one; [auto|unfold SR.component; lia|left; split; reflexivity].
Qed.
(** A transfer with 77 announced approvals and three bytes behind it. *)
Definition odd_tail : list Z := le 4 77 ++ [9; 9; 9].
Lemma trailing_case x : let d := d_transfer in let i := d_session d in exists s,
  hash32 (p_hash demo) /\ good_header (d_header d) /\ S.len (p_amount (d_payment d)) <= 64 /\ good_session i /\
  h_bodyhash (d_header d) = p_hash demo (enc_payment (d_payment d) ++ enc_session i) /\ SR.trailing x i 77 odd_tail /\
  session_review (p_hash demo) x i = Some s /\ expert_ok x (p_time demo) (d_header d) /\
  let data := enc_header (d_header d) ++ p_hash demo (enc_header (d_header d)) ++ enc_payment (d_payment d) ++ enc_session i ++ odd_tail in
  bytes data /\ zlen data < 65472 /\ SL.no_leap data.
Proof.
  intros d i. pose proof d_transfer_good as G. fold d in G.
  assert (exists s, session_review (p_hash demo) x i = Some s) as [s R] by (destruct x; vm_compute; eexists; reflexivity).
  exists s. split; [exact demo_hash32|]. split; [apply (gd_header _ _ G)|]. split; [apply (gd_pay _ _ G)|]. split; [apply (gd_session _ _ G)|].
  split; [apply (gd_body _ _ G)|]. split.
  - constructor; [unfold SL.word; lia|intros _; eexists; reflexivity|]. intros w l E. discriminate E.
  - split; [exact R|]. split; [apply demo_expert; reflexivity|]. cbv zeta. split; [apply bytesb_ok; vm_compute; reflexivity|]. split; [vm_compute; reflexivity|].
    apply no_ff_leap; vm_compute; reflexivity.
Qed.
