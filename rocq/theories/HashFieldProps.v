(** C91: expand_message_xmd is the one of RFC 9380, and a collision of it is one of the hash.
    C92: hash_to_field and HashToScalar. *)
From Coq Require Import ZArith List Bool Lia PeanoNat.
From Verif Require Import LinCodeModel ZpLib SafePrimeModel SafePrimeProps HashCurveModel HashFieldProof.
Import ListNotations.
Open Scope Z_scope.

(** ** RFC 9380, 5.3.1 *)
Section Rfc.
Variable H : list Z -> list Z.
Variable s : nat.
(** DST_prime = DST || I2OSP(len(DST), 1) *)
Definition dst_prime (dst : list Z) : list Z := dst ++ [Z.of_nat (length dst)].
(** msg_prime = Z_pad || msg || I2OSP(len_in_bytes, 2) || I2OSP(0, 1) || DST_prime *)
Definition msg_prime (msg dst : list Z) (len : nat) : list Z :=
  repeat 0 s ++ msg ++ [Z.of_nat len / 256; Z.of_nat len mod 256] ++ [0] ++ dst_prime dst.
(** b_(i+1): b_1 = H(b_0 || 1 || DST_prime), b_i = H(strxor(b_0, b_(i-1)) || i || DST_prime). *)
Fixpoint rfc_block (msg dst : list Z) (len i : nat) : list Z :=
  let b0 := H (msg_prime msg dst len) in
  match i with
  | O => H (b0 ++ [1] ++ dst_prime dst)
  | S k => H (map (fun '(x, y) => Z.lxor x y) (combine b0 (rfc_block msg dst len k)) ++ [Z.of_nat (S i)] ++ dst_prime dst)
  end.
Definition rfc_uniform (msg dst : list Z) (len ell : nat) : list Z := firstn len (concat (map (rfc_block msg dst len) (seq 0 ell))).
End Rfc.

Lemma xor_comm a : forall b, xor_bytes a b = xor_bytes b a.
Proof. unfold xor_bytes. induction a as [|x a IH]; intros [|y b]; cbn; auto. rewrite IH, Z.lxor_comm. reflexivity. Qed.

Section Props.
Variable H : list Z -> list Z.
Variable b : nat.
Hypothesis bpos : (0 < b)%nat.
Hypothesis Hlen : forall l, length (H l) = b.
Notation ceil len := (((len + b - 1) / b)%nat).

Lemma loop_rfc c msg dst len : forall n k, (n + k < 255)%nat -> 
  xmd_loop H (H (msg_prime (h_s c) msg dst len)) (dst_prime dst) n (Z.of_nat (S (S k))) (rfc_block H (h_s c) msg dst len k) []
  = concat (map (rfc_block H (h_s c) msg dst len) (seq (S k) n)).
Proof.
  induction n as [|n IH]; intros k K; [reflexivity|]. cbn [xmd_loop seq map concat]. rewrite loop_app. cbn [app].
  assert (E : H (xor_bytes (rfc_block H (h_s c) msg dst len k) (H (msg_prime (h_s c) msg dst len)) ++ Z.of_nat (S (S k)) mod 256 :: dst_prime dst) = rfc_block H (h_s c) msg dst len (S k)).
  { cbn [rfc_block]. rewrite xor_comm. rewrite Z.mod_small by lia. reflexivity. }
  rewrite E. f_equal. replace (Z.of_nat (S (S k)) + 1) with (Z.of_nat (S (S (S k)))) by lia. apply IH. lia.
Qed.
Lemma block_length s msg dst len i : length (rfc_block H s msg dst len i) = b.
Proof. destruct i; cbn [rfc_block]; apply Hlen. Qed.
Lemma blocks_length s msg dst len l : length (concat (map (rfc_block H s msg dst len) l)) = (length l * b)%nat.
Proof. induction l as [|i l IH]; [reflexivity|]. cbn [map concat length]. rewrite app_length, block_length, IH. lia. Qed.

(** The sizes RFC 9380 admits, with the tags this library insists on. *)
Definition xmd_sizes (dst : list Z) (len : nat) : Prop := (16 <= length dst <= 255)%nat /\ Z.of_nat len <= 65535 /\ (ceil len <= 255)%nat.

Theorem xmd_rfc c msg dst len : xmd_sizes dst len ->
  expand_xmd H b c msg dst len = Val (rfc_uniform H (h_s c) msg dst len (ceil len)) /\ length (rfc_uniform H (h_s c) msg dst len (ceil len)) = len.
Proof.
  intros (D & L & C). pose proof (ceil_le b bpos len) as CL. unfold expand_xmd.
  rewrite (proj2 (Nat.leb_le _ _) C). rewrite (proj2 (Z.leb_le _ _) L). rewrite (proj2 (Nat.leb_le 16 (length dst))), (proj2 (Nat.leb_le (length dst) 255)) by lia. cbn [negb].
  rewrite i2osp1 by lia. cbn [bind]. rewrite i2osp2 by lia. cbn [bind].
  assert (LU : length (rfc_uniform H (h_s c) msg dst len (ceil len)) = len).
  { unfold rfc_uniform. rewrite firstn_length, blocks_length, seq_length. lia. }
  split; [|exact LU]. f_equal.
  change (dst ++ [Z.of_nat (length dst)]) with (dst_prime dst).
  change (H (repeat 0 (h_s c) ++ msg ++ [Z.of_nat len / 256; Z.of_nat len mod 256] ++ [0] ++ dst_prime dst)) with (H (msg_prime (h_s c) msg dst len)).
  change (H (H (msg_prime (h_s c) msg dst len) ++ [1] ++ dst_prime dst)) with (rfc_block H (h_s c) msg dst len 0).
  rewrite loop_app. unfold resize. destruct (ceil len) as [|n] eqn:En.
  - assert (len = O) as -> by lia. reflexivity.
  - replace (S n - 1)%nat with n by lia. pose proof (loop_rfc c msg dst len n 0 ltac:(lia)) as LR. cbn [Z.of_nat Pos.of_succ_nat Pos.succ] in LR. rewrite LR.
    unfold rfc_uniform. cbn [seq map concat].
    replace (len - length (rfc_block H (h_s c) msg dst len 0 ++ concat (map (rfc_block H (h_s c) msg dst len) (seq 1 n))))%nat with O.
    + cbn [repeat]. rewrite app_nil_r. reflexivity.
    + rewrite app_length, block_length, blocks_length, seq_length. nia.
Qed.
Theorem xmd_refuses c msg dst len : ~ xmd_sizes dst len -> expand_xmd H b c msg dst len = Thrown.
Proof.
  intros N. unfold expand_xmd.
  destruct (Nat.leb_spec (ceil len) 255) as [C|]; [|reflexivity]. cbn [negb]. destruct (Z.leb_spec (Z.of_nat len) 65535) as [L|]; [|reflexivity]. cbn [negb].
  destruct (Nat.leb_spec 16 (length dst)) as [D|]; [|reflexivity]. cbn [negb]. destruct (Nat.leb_spec (length dst) 255) as [D'|]; [|reflexivity].
  destruct N. unfold xmd_sizes. lia.
Qed.

(** The first hash input determines message, tag and length. *)
Lemma app_last_inj {A} (x y : list A) a c : x ++ [a] = y ++ [c] -> x = y /\ a = c.
Proof. apply app_inj_tail. Qed.
Lemma app_len_inj {A} (x y u w : list A) : length u = length w -> x ++ u = y ++ w -> x = y /\ u = w.
Proof.
  intros L E. assert (LX : length x = length y) by (apply (f_equal (@length A)) in E; rewrite !app_length in E; lia).
  assert (EX : x = y) by (apply (f_equal (firstn (length x))) in E; rewrite firstn_app, firstn_all, Nat.sub_diag, firstn_O, app_nil_r in E; rewrite LX, firstn_app, firstn_all, Nat.sub_diag, firstn_O, app_nil_r in E; exact E).
  split; [exact EX|]. subst y. apply app_inv_head in E. exact E.
Qed.
Lemma dst_prime_inj x y d d' : x ++ dst_prime d = y ++ dst_prime d' -> x = y /\ d = d'.
Proof.
  unfold dst_prime. rewrite !app_assoc. intros E. apply app_last_inj in E as [E L]. apply Nat2Z.inj in L. apply app_len_inj in E; auto.
Qed.
Lemma msg_prime_inj s m d n m' d' n' : msg_prime s m d n = msg_prime s m' d' n' -> m = m' /\ d = d' /\ n = n'.
Proof.
  unfold msg_prime. intros E. apply app_inv_head in E. rewrite !app_assoc in E. apply dst_prime_inj in E as [E ->].
  rewrite <- !app_assoc in E. apply app_len_inj in E as [-> E]; [|reflexivity]. cbn [app] in E. injection E as E1 E2.
  repeat split; auto. apply Nat2Z.inj. rewrite (Z.div_mod (Z.of_nat n) 256), (Z.div_mod (Z.of_nat n') 256) by lia. congruence.
Qed.
Lemma list_dec (x y : list Z) : {x = y} + {x <> y}. Proof. apply list_eq_dec. apply Z.eq_dec. Defined.
Lemma firstn_block s msg dst len ell : (b <= len)%nat -> (0 < ell)%nat -> firstn b (rfc_uniform H s msg dst len ell) = rfc_block H s msg dst len 0.
Proof.
  intros L E. unfold rfc_uniform. rewrite firstn_firstn. replace (Nat.min b len) with b by lia. destruct ell as [|n]; [lia|]. cbn [seq map concat].
  rewrite firstn_app, block_length, Nat.sub_diag, firstn_O, app_nil_r. rewrite <- (block_length s msg dst len 0). apply firstn_all.
Qed.
(** Two different requests with the same output of at least one digest give a collision of the hash. *)
Theorem xmd_collision c msg dst len msg' dst' r : xmd_sizes dst len -> xmd_sizes dst' len -> (b <= len)%nat -> (msg, dst) <> (msg', dst') ->
  expand_xmd H b c msg dst len = Val r -> expand_xmd H b c msg' dst' len = Val r -> exists x y, x <> y /\ H x = H y.
Proof.
  intros S S' L N E E'. destruct (xmd_rfc c msg dst len S) as [R _]. destruct (xmd_rfc c msg' dst' len S') as [R' _]. rewrite R in E. rewrite R' in E'.
  assert (P : (0 < ceil len)%nat) by (pose proof (ceil_le b bpos len); lia).
  assert (B : rfc_block H (h_s c) msg dst len 0 = rfc_block H (h_s c) msg' dst' len 0).
  { rewrite <- (firstn_block _ _ _ _ (ceil len) L P), <- (firstn_block _ msg' dst' _ (ceil len) L P). congruence. }
  cbn [rfc_block] in B. destruct (list_dec (H (msg_prime (h_s c) msg dst len) ++ [1] ++ dst_prime dst) (H (msg_prime (h_s c) msg' dst' len) ++ [1] ++ dst_prime dst')) as [Q|Q];
    [|eauto]. rewrite !app_assoc in Q. apply dst_prime_inj in Q as [Q ED]. apply app_inv_tail in Q.
  destruct (list_dec (msg_prime (h_s c) msg dst len) (msg_prime (h_s c) msg' dst' len)) as [M|M]; [|eauto].
  apply msg_prime_inj in M as (-> & -> & _). destruct N. reflexivity.
Qed.
(** A longer request does not extend a shorter one unless the hash collides: the length is hashed. *)
Theorem xmd_lengths c msg dst len len' r r' : xmd_sizes dst len -> xmd_sizes dst len' -> (b <= len < len')%nat ->
  expand_xmd H b c msg dst len = Val r -> expand_xmd H b c msg dst len' = Val r' -> firstn b r = firstn b r' -> exists x y, x <> y /\ H x = H y.
Proof.
  intros S S' L E E' F. destruct (xmd_rfc c msg dst len S) as [R _]. destruct (xmd_rfc c msg dst len' S') as [R' _]. rewrite R in E. rewrite R' in E'.
  injection E as <-. injection E' as <-.
  pose proof (ceil_le b bpos len) as P. pose proof (ceil_le b bpos len') as P'. rewrite !firstn_block in F by lia. cbn [rfc_block] in F.
  destruct (list_dec (H (msg_prime (h_s c) msg dst len) ++ [1] ++ dst_prime dst) (H (msg_prime (h_s c) msg dst len') ++ [1] ++ dst_prime dst)) as [Q|Q];
    [|eauto]. apply app_inv_tail in Q.
  destruct (list_dec (msg_prime (h_s c) msg dst len) (msg_prime (h_s c) msg dst len')) as [M|M]; [|eauto]. apply msg_prime_inj in M as (_ & _ & M). lia.
Qed.

(** ** hash_to_field and HashToScalar *)
Lemma traverse_map {A B} (f : A -> outcome B) (g : A -> B) l : (forall a, In a l -> f a = Val (g a)) -> traverse f l = Val (map g l).
Proof. induction l as [|a l IH]; intros F; [reflexivity|]. cbn [traverse map]. rewrite F by (left; reflexivity). cbn [bind]. rewrite IH by (intros; apply F; right; assumption). reflexivity. Qed.

(** Element i is the i-th block of [l] uniform bytes, big-endian, modulo p, on key_size bytes. *)
Theorem field_elements c msg count l dst : xmd_sizes dst (count * l) -> 0 < h_p c <= 256 ^ Z.of_nat (h_key c) ->
  exists us, hash_to_field H b c msg count l dst = Val us /\ length us = count /\
    forall i, (i < count)%nat -> length (nth i us []) = h_key c /\ Forall (fun z => 0 <= z < 256) (nth i us []) /\
      be_value (nth i us []) = be_value (firstn l (skipn (l * i) (rfc_uniform H (h_s c) msg dst (count * l) (ceil (count * l))))) mod h_p c.
Proof.
  intros S P. destruct (xmd_rfc c msg dst _ S) as [R _]. unfold hash_to_field. rewrite R. cbn [bind].
  set (U := rfc_uniform H (h_s c) msg dst (count * l) (ceil (count * l))). clearbody U.
  set (g := fun i => be_bytes (h_key c) (be_value (firstn l (skipn (l * i) U)) mod h_p c)).
  exists (map g (seq 0 count)). split; [|split].
  - apply traverse_map. intros i _. unfold g. apply pad_bytes_ok. pose proof (Z.mod_pos_bound (be_value (firstn l (skipn (l * i) U))) (h_p c) ltac:(lia)). lia.
  - rewrite map_length, seq_length. reflexivity.
  - intros i Hi. rewrite (nth_indep _ [] (g O)) by (rewrite map_length, seq_length; lia). rewrite map_nth, seq_nth by lia. cbn [plus]. unfold g.
    split; [apply be_bytes_length|]. split; [apply be_bytes_byte|]. apply be_value_bytes.
    pose proof (Z.mod_pos_bound (be_value (firstn l (skipn (l * i) U))) (h_p c) ltac:(lia)). lia.
Qed.
Theorem scalar_value c msg l dst n : xmd_sizes dst l -> h_n c = Some n -> 0 < n ->
  exists k, nist_scalar H b c l msg dst = Val k /\ 0 <= k < n /\ k = be_value (rfc_uniform H (h_s c) msg dst l (ceil l)) mod n.
Proof.
  intros S N P. destruct (xmd_rfc c msg dst l S) as [R _]. destruct S as (D & _). unfold nist_scalar, dst_ok, hash_to_scalar.
  rewrite (proj2 (Nat.leb_le 16 (length dst))), (proj2 (Nat.leb_le (length dst) 255)) by lia. cbn [andb negb]. rewrite R. cbn [bind]. rewrite N.
  eexists. split; [reflexivity|]. split; [apply Z.mod_pos_bound; lia|reflexivity].
Qed.
(** The tables of P-384 and P-521 hold no group order: HashToScalar fails for every input. *)
Theorem scalar_never c msg l dst : c = ctx_p384 \/ c = ctx_p521 -> nist_scalar H b c l msg dst = Thrown.
Proof.
  intros C. unfold nist_scalar. destruct (negb (dst_ok dst)); [reflexivity|]. unfold hash_to_scalar.
  destruct (expand_xmd H b c msg dst l) as [u| | |] eqn:E.
  - cbn [bind]. destruct C as [-> | ->]; reflexivity.
  - reflexivity.
  - exfalso. revert E. unfold expand_xmd. repeat match goal with |- context [if ?t then _ else _] => destruct t eqn:?; try discriminate end.
    rewrite i2osp1; [|apply negb_false_iff in Heqb3; apply Nat.leb_le in Heqb3; lia]. cbn [bind]. rewrite i2osp2; [discriminate|]. apply negb_false_iff in Heqb1. apply Z.leb_le in Heqb1. lia.
  - exfalso. revert E. unfold expand_xmd. repeat match goal with |- context [if ?t then _ else _] => destruct t eqn:?; try discriminate end.
    rewrite i2osp1; [|apply negb_false_iff in Heqb3; apply Nat.leb_le in Heqb3; lia]. cbn [bind]. rewrite i2osp2; [discriminate|]. apply negb_false_iff in Heqb1. apply Z.leb_le in Heqb1. lia.
Qed.
End Props.

(** ** A case: a toy digest of two bytes (the sum of its input), three blocks *)
Definition ex_hash (l : list Z) : list Z := let s := fold_left (fun a z => (a * 31 + z) mod 65521) l 7 in [s / 256; s mod 256].
Definition ex_dst : list Z := map Z.of_nat (seq 65 16).
Example ex_sizes : xmd_sizes 2 ex_dst 5.
Proof. unfold xmd_sizes. cbn. lia. Qed.
Example ex_len l : length (ex_hash l) = 2%nat. Proof. reflexivity. Qed.
Example ex_xmd : exists r, expand_xmd ex_hash 2 ctx_p256 [1; 2; 3] ex_dst 5 = Val r /\ length r = 5%nat /\ r = rfc_uniform ex_hash 64 [1; 2; 3] ex_dst 5 3 /\ ~ In 0 r.
Proof. eexists. split; [reflexivity|]. vm_compute. repeat split. intuition discriminate. Qed.
Example ex_scalar : exists k, nist_scalar ex_hash 2 ctx_p256 48 [1; 2; 3] ex_dst = Val k /\ 2 ^ 200 < k.
Proof. eexists. split; [reflexivity|]. vm_compute. reflexivity. Qed.
Theorem scalar_refuted : exists H b c l msg dst, (c = ctx_p384 \/ c = ctx_p521) /\ xmd_sizes b dst l /\ (forall m, length (H m) = b) /\ nist_scalar H b c l msg dst = Thrown.
Proof.
  exists ex_hash, 2%nat, ctx_p384, 72%nat, [1], ex_dst. split; [auto|]. split; [unfold xmd_sizes; cbn; lia|]. split; [apply ex_len|]. vm_compute. reflexivity.
Qed.

Print Assumptions xmd_rfc.
Print Assumptions xmd_refuses.
Print Assumptions xmd_collision.
Print Assumptions xmd_lengths.
Print Assumptions field_elements.
Print Assumptions scalar_value.
Print Assumptions scalar_never.
Print Assumptions scalar_refuted.
