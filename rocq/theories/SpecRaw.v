(** Specification of the sessions of deploys in arbitrary bytes.  Nothing in
    this file refers to the model. *)
From Verif Require Export Spec SpecDeploy SpecLayout.

Module SR.
Import S SL.

(** Type descriptors the device reads: the tags of all components come first,
    their parameters after them.  (In a CLType every parameter follows its own
    tag; the two agree when only the last component has a parameter.) *)
Definition simple (t : Z) : Prop := 0 <= t <= 12 \/ t = 21 \/ t = 22.
Definition component (t : Z) : Prop := 0 <= t <= 12 \/ t = 15 \/ t = 22.
Definition parameter (t : Z) (p : list Z) : Prop := t = 15 /\ len p = 4 \/ t <> 15 /\ p = [].
(** A tag and what follows it. *)
Inductive flat : Z -> list Z -> Prop :=
| f_simple t : simple t -> flat t []
| f_array p : len p = 4 -> flat 15 p
| f_any : flat 14 [21]
| f_one t a p : t = 13 \/ t = 14 \/ t = 18 -> component a -> parameter a p -> flat t (a :: p)
| f_two t a b p q : t = 16 \/ t = 19 -> component a -> component b -> parameter a p -> parameter b q ->
    flat t (a :: b :: p ++ q)
| f_three a b c p q r : component a -> component b -> component c -> parameter a p -> parameter b q -> parameter c r ->
    flat 20 (a :: b :: c :: p ++ q ++ r).
Inductive type_bytes : list Z -> Prop :=
| t_flat t p : flat t p -> type_bytes (t :: p)
| t_map a b p q : flat a p -> flat b q -> type_bytes (17 :: a :: b :: p ++ q).

(** An argument of such a type. *)
Definition readable (r : raw_arg) : Prop := type_bytes (r_ty r).
Definition args_bytes (l : list raw_arg) : list Z := List.concat (List.map raw_bytes l).

(** What lies between the tag of a session and the number of its arguments. *)
Definition version_bytes (v : list Z) : Prop := v = [0] \/ exists n, v = 1 :: le 4 n /\ word n.
Inductive session_head : Z -> list Z -> Prop :=
| h_module code : session_head 0 (lv code)
| h_hash h ep : len h = 32 -> session_head 1 (h ++ lv ep)
| h_name nm ep : session_head 2 (lv nm ++ lv ep)
| h_vhash h v ep : len h = 32 -> version_bytes v -> session_head 3 (h ++ v ++ lv ep)
| h_vname nm v ep : version_bytes v -> session_head 4 (lv nm ++ v ++ lv ep)
| h_transfer : session_head 5 [].
(** A session, with exactly the arguments it announces. *)
Definition session_bytes (s : list Z) : Prop :=
  exists t hd l, session_head t hd /\ Forall readable l /\ s = t :: hd ++ le 4 (len l) ++ args_bytes l.
(** A session announced by [s] that has, before the last of its arguments, one
    the device cannot read: a type of another form, or a name of more than 300
    bytes, or not all of its bytes present. *)
Definition unreadable (s : list Z) : Prop :=
  exists t hd n l rest, session_head t hd /\ Forall readable l /\ s = t :: hd ++ le 4 n ++ args_bytes l ++ rest /\
    len l < n /\ word n /\ forall r post, readable r -> len (r_name r) <= 300 -> rest <> raw_bytes r ++ post.
(** Types the device reads though CLTypes are not written so, or not exactly: a
    parameter before the last component, a map with keys that are not simple. *)
Inductive early : Z -> list Z -> Prop :=
| e_two t b p q : t = 16 \/ t = 19 -> component b -> parameter 15 p -> parameter b q -> early t (15 :: b :: p ++ q)
| e_three a b c p q r : component a -> component b -> component c -> parameter a p -> parameter b q -> parameter c r ->
    a = 15 \/ b = 15 -> early 20 (a :: b :: c :: p ++ q ++ r).
Inductive odd_type : list Z -> Prop :=
| o_early t p : early t p -> odd_type (t :: p)
| o_key a b p q : ~ simple a -> flat a p -> flat b q -> odd_type (17 :: a :: b :: p ++ q)
| o_value a b q : simple a -> early b q -> odd_type (17 :: a :: b :: q).
Definition odd_session (s : list Z) : Prop :=
  exists t hd l, session_head t hd /\ Forall readable l /\ s = t :: hd ++ le 4 (len l) ++ args_bytes l /\
    Exists (fun r => odd_type (r_ty r)) l.
(** Deploys of which only the form is prescribed: no bounds on names or code. *)
Definition form_session (s : SD.session) : Prop :=
  Forall (fun a => supported (a_ty a) = true) (SD.args_of s) /\
  match s with
  | SD.Stored (SD.ByHash h) _ _ => len h = 32
  | SD.Stored (SD.ByHashV h v) _ _ => len h = 32 /\ SD.good_ver v
  | SD.Stored (SD.ByNameV _ v) _ _ => SD.good_ver v
  | _ => True
  end.
Record form_header (h : SD.header) : Prop := {
  fh_alg : SD.h_alg h = 1 \/ SD.h_alg h = 2;
  fh_key : len (SD.h_key h) = SD.key_len (SD.h_alg h);
  fh_time : 0 <= SD.h_time h < 2 ^ 64; fh_ttl : 0 <= SD.h_ttl h < 2 ^ 64; fh_gas : 0 <= SD.h_gas h < 2 ^ 64;
  fh_bodyhash : len (SD.h_bodyhash h) = 32;
  fh_deps : Forall (fun x => len x = 32) (SD.h_deps h) }.
(** More dependencies announced than fit in the sizes the device accepts. *)
Definition crowded (data : list Z) : Prop :=
  exists alg mid n post, data = alg :: mid ++ le 4 n ++ post /\ len mid = SD.key_len alg + 56 /\ word n /\ 2042 <= n.
(** The payment: module bytes, one argument called amount of type U512. *)
Definition payment_bytes (p : list Z) : Prop :=
  exists code nm val, p = 0 :: lv code ++ le 4 1 ++ lv nm ++ lv val ++ [8] /\
    (nm = text "amount" \/ exists more, nm = text "amount" ++ 0 :: more).
(** The review of a deploy whose session shows the lines [s], followed by the
    number [n] where the number of approvals is. *)
Definition around_n (expert : bool) (d : SD.deploy) (n : Z) (s : list SD.line) : list SD.line :=
  let h := SD.d_header d in
  [SD.ln "Txn hash" (SD.Hex (SD.d_hash d)); SD.ln "Type" (SD.Words (text (SD.type_text (SD.d_session d))));
   SD.ln "Chain ID" (SD.Text (SD.h_chain h)); SD.ln "Account" (SD.KeyText (SD.h_alg h) (SD.h_key h))]
  ++ (if expert then
        [SD.ln "Timestamp" (SD.Time (SD.h_time h / 1000)); SD.ln "Ttl" (SD.Ttl (SD.h_ttl h / 1000));
         SD.ln "Gas price" (SD.Number (SD.h_gas h)); SD.ln "Deps #" (SD.Number (len (SD.h_deps h)))]
      else [])
  ++ [SD.ln "Fee" (SD.Motes (value (SD.p_amount (SD.d_payment d))))]
  ++ s
  ++ (if expert then [SD.ln "Approvals #" (SD.Number n)] else []).
(** Bytes [r] behind a deploy with the session [i] in which [n] is found as the
    number of approvals.  Behind module code they matter: the device looks for
    arguments there. *)
Record trailing (expert : bool) (i : SD.session) (n : Z) (r : list Z) : Prop := {
  tr_n : word n;
  tr_expert : expert = true -> exists post, r = le 4 n ++ post;
  tr_module : forall w l, i = SD.Module w l ->
    exists post, r = le 4 n ++ post /\ n <= 100 /\ n <= len post /\ forall b q, post = b :: q -> b = 1 \/ b = 2 }.
Definition sealed (H : list Z -> list Z) (h : SD.header) (p : SD.payment) (i : SD.session) : SD.deploy :=
  SD.Deploy h (H (SD.enc_header h)) p i [].
End SR.
