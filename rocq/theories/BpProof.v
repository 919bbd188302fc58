(** Lemmas for the Bulletproofs model. *)
From Coq Require Import Ascii String.
From Coq Require Import ZArith List Bool Arith Lia Znumtheory Setoid.
From Verif Require Import ZpLib VssModel VssProps LinCodeModel BpModel.
Import ListNotations.
Open Scope Z_scope.

(** ** Integer vectors *)
Fixpoint dot (a b : list Z) : Z :=
  match a, b with x :: a', y :: b' => x * y + dot a' b' | _, _ => 0 end.
Definition had (a b : list Z) : list Z := map (fun p => fst p * snd p) (combine a b).
Definition scale (c : Z) (a : list Z) : list Z := map (Z.mul c) a.
Definition lin (u v : Z) (x y : list Z) : list Z := map (fun p => fst p * u + snd p * v) (combine x y).

Lemma dot_app a : forall b c d, length a = length c -> dot (a ++ b) (c ++ d) = dot a c + dot b d.
Proof.
  induction a as [|x a IH]; intros b [|y c] d E; try discriminate; cbn [app dot]; [reflexivity|].
  cbn [length] in E. rewrite IH by lia. lia.
Qed.
Lemma dot_comm a : forall b, dot a b = dot b a.
Proof. induction a as [|x a IH]; intros [|y b]; cbn [dot]; try reflexivity. rewrite IH. lia. Qed.
Lemma dot_scale_l c a : forall b, dot (scale c a) b = c * dot a b.
Proof.
  unfold scale. induction a as [|x a IH]; intros b; [cbn; lia|]. destruct b as [|y b]; cbn [map dot]; [lia|]. rewrite IH. ring.
Qed.
Lemma dot_scale_r c a b : dot a (scale c b) = c * dot a b.
Proof. rewrite dot_comm, dot_scale_l, dot_comm. reflexivity. Qed.
Lemma dot_lin_l u v x : forall y g, length x = length y -> dot (lin u v x y) g = u * dot x g + v * dot y g.
Proof.
  unfold lin. induction x as [|a x IH]; intros [|b y] [|c g] E; try discriminate; cbn [combine map dot fst snd]; try lia.
  cbn [length] in E. rewrite IH by lia. ring.
Qed.
Lemma dot_lin_r u v x y g : length x = length y -> dot g (lin u v x y) = u * dot g x + v * dot g y.
Proof. intros E. rewrite dot_comm, dot_lin_l by exact E. rewrite (dot_comm x), (dot_comm y). reflexivity. Qed.
Lemma dot_had a : forall f g, length a = length f -> dot (had a f) g = dot a (had f g).
Proof.
  unfold had. induction a as [|x a IH]; intros [|y f] [|z g] E; try discriminate; cbn [combine map dot fst snd]; try reflexivity.
  cbn [length] in E. rewrite IH by lia. ring.
Qed.
Lemma lin_length u v x y : length (lin u v x y) = Nat.min (length x) (length y).
Proof. unfold lin. rewrite map_length, combine_length. reflexivity. Qed.
Lemma had_length x y : length (had x y) = Nat.min (length x) (length y).
Proof. unfold had. rewrite map_length, combine_length. reflexivity. Qed.

Lemma dot_eqm q a a' : Forall2 (eqm q) a a' -> forall b b', Forall2 (eqm q) b b' -> eqm q (dot a b) (dot a' b').
Proof.
  induction 1 as [|x x' a a' Ex _ IH]; intros b b' F; [reflexivity|].
  destruct F as [|y y' b b' Ey F]; cbn [dot]; [reflexivity|]. rewrite (IH b b' F), Ex, Ey. reflexivity.
Qed.
Lemma eqms_refl q a : Forall2 (eqm q) a a.
Proof. induction a; constructor; [reflexivity|assumption]. Qed.
Lemma eqms_sym q a b : Forall2 (eqm q) a b -> Forall2 (eqm q) b a.
Proof. induction 1; constructor; [symmetry|]; assumption. Qed.
Lemma eqms_trans q a b : Forall2 (eqm q) a b -> forall c, Forall2 (eqm q) b c -> Forall2 (eqm q) a c.
Proof.
  induction 1 as [|x y a b E _ IH]; intros c F; inversion F; subst; constructor; [etransitivity; eassumption|apply IH; assumption].
Qed.
Lemma eqms_length {q a b} : Forall2 (eqm q) a b -> length a = length b.
Proof. induction 1; cbn; congruence. Qed.
Lemma eqms_app q a b c d : Forall2 (eqm q) a b -> Forall2 (eqm q) c d -> Forall2 (eqm q) (a ++ c) (b ++ d).
Proof. apply Forall2_app. Qed.
Lemma eqms_map2 q (f g : Z -> Z -> Z) : (forall a b c d, eqm q a c -> eqm q b d -> eqm q (f a b) (g c d)) ->
  forall x x', Forall2 (eqm q) x x' -> forall y y', Forall2 (eqm q) y y' ->
  Forall2 (eqm q) (map (fun p => f (fst p) (snd p)) (combine x y)) (map (fun p => g (fst p) (snd p)) (combine x' y')).
Proof.
  intros K. induction 1 as [|a c x x' E _ IH]; intros y y' F; [constructor|].
  destruct F as [|b d y y' E' F]; cbn [combine map fst snd]; [constructor|]. constructor; [apply K; assumption|apply IH; assumption].
Qed.
Lemma eqms_map q (f g : Z -> Z) : (forall a c, eqm q a c -> eqm q (f a) (g c)) ->
  forall x x', Forall2 (eqm q) x x' -> Forall2 (eqm q) (map f x) (map g x').
Proof. intros K. induction 1; cbn; constructor; auto. Qed.

(** ** Sums *)
Fixpoint sm (k : nat) (f : nat -> Z) : Z := match k with O => 0 | S k' => sm k' f + f k' end.
Lemma sm_ext k f g : (forall i, (i < k)%nat -> f i = g i) -> sm k f = sm k g.
Proof. induction k as [|k IH]; intros E; [reflexivity|]. cbn [sm]. rewrite IH, E by (intros; try apply E; lia). reflexivity. Qed.
Lemma sm_eqm q k f g : (forall i, (i < k)%nat -> eqm q (f i) (g i)) -> eqm q (sm k f) (sm k g).
Proof.
  induction k as [|k IH]; intros E; [reflexivity|]. cbn [sm]. rewrite (E k) by lia. rewrite IH by (intros; apply E; lia). reflexivity.
Qed.
Lemma sm_add k f g : sm k (fun i => f i + g i) = sm k f + sm k g.
Proof. induction k as [|k IH]; [reflexivity|]. cbn [sm]. rewrite IH. lia. Qed.
Lemma sm_sub k f g : sm k (fun i => f i - g i) = sm k f - sm k g.
Proof. induction k as [|k IH]; [reflexivity|]. cbn [sm]. rewrite IH. lia. Qed.
Lemma sm_scale k c f : sm k (fun i => c * f i) = c * sm k f.
Proof. induction k as [|k IH]; cbn [sm]; [lia|]. rewrite IH. lia. Qed.
Lemma sm_shift k f : sm (S k) f = f O + sm k (fun i => f (S i)).
Proof. induction k as [|k IH]; [cbn; lia|]. change (sm (S (S k)) f) with (sm (S k) f + f (S k)). rewrite IH. cbn [sm]. lia. Qed.
Lemma sm_plus a b f : sm (a + b) f = sm a f + sm b (fun i => f (a + i)%nat).
Proof.
  induction b as [|b IH]; [rewrite Nat.add_0_r; cbn; lia|]. rewrite Nat.add_succ_r. cbn [sm]. rewrite IH. lia.
Qed.
Lemma sm_flat m k f : sm (k * m) f = sm m (fun j => sm k (fun i => f (j * k + i)%nat)).
Proof.
  induction m as [|m IH]; [rewrite Nat.mul_0_r; reflexivity|].
  replace (k * S m)%nat with (k * m + k)%nat by lia. rewrite sm_plus, IH. cbn [sm]. f_equal.
  apply sm_ext. intros i _. f_equal. lia.
Qed.
Lemma dot_sm a : forall b k, length a = k -> length b = k -> dot a b = sm k (fun i => nth i a 0 * nth i b 0).
Proof.
  induction a as [|x a IH]; intros [|y b] k E F; cbn [length] in *; subst k; try discriminate; [reflexivity|].
  rewrite sm_shift. cbn [dot nth]. rewrite (IH b (length a)) by lia. reflexivity.
Qed.

(** ** Points as multiples of the base *)
Section Points.
Variable e : curve.
Notation q := (order e).
Notation pt := (point (grp e)).
Definition bs (k : Z) : pt := g_mul (grp e) (g_base (grp e)) k.
Definition on_curve (P : pt) : Prop := exists k, P = bs k.

Record lawful : Prop := {
  w_prime : prime (order e);
  w_cyc : cyclic (grp e) (order e);
  w_sub : forall a b, c_sub e (bs a) (bs b) = bs (a - b);
  w_inf : forall a, c_inf e (bs a) = true <-> a mod order e = 0 }.

Hypothesis W : lawful.
Lemma bs_eqm a b : bs a = bs b <-> eqm q a b.
Proof.
  unfold bs. rewrite (mul_order _ _ (w_cyc W) a b). split; [intros E; constructor; exact E|intros [E]; exact E].
Qed.
Lemma bs_add a b : g_add (grp e) (bs a) (bs b) = bs (a + b).
Proof. apply (mul_add _ _ (w_cyc W)). Qed.
Lemma bs_mul a b : g_mul (grp e) (bs a) b = bs (a * b).
Proof. apply (mul_mul _ _ (w_cyc W)). Qed.
Lemma inf_eqm a : c_inf e (bs a) = true <-> eqm q a 0.
Proof.
  rewrite (w_inf W). pose proof (prime_pos _ (w_prime W)) as Q. split.
  - intros E. constructor. rewrite Z.mod_0_l by lia. exact E.
  - intros [E]. rewrite Z.mod_0_l in E by lia. exact E.
Qed.
Lemma on_list G : Forall on_curve G -> exists ks, G = map bs ks.
Proof.
  induction 1 as [|P G [k E] _ [ks IH]]; [exists []; reflexivity|]. exists (k :: ks). cbn. congruence.
Qed.
Lemma msm_loop_spec ss : forall ks acc, exists r,
  msm_loop e (combine ss (map bs ks)) (bs acc) = bs r /\ r = acc + dot ss ks.
Proof.
  unfold msm_loop. induction ss as [|s ss IH]; intros ks acc; [exists acc; cbn; split; [reflexivity|lia]|].
  destruct ks as [|k ks]; [exists acc; cbn; split; [reflexivity|lia]|]. cbn [map combine fold_left fst snd dot].
  destruct (Z.eqb_spec s 0) as [->|_].
  - destruct (IH ks acc) as [r [E F]]. exists r. split; [exact E|]. lia.
  - rewrite bs_mul, bs_add. destruct (IH ks (acc + k * s)) as [r [E F]]. exists r. split; [exact E|]. lia.
Qed.
Lemma msm_spec ss ks : length ss = length ks -> msm e ss (map bs ks) = Val (bs (dot ss ks)).
Proof.
  intros E. unfold msm. rewrite map_length, E, Nat.eqb_refl.
  change (g_mul (grp e) (g_base (grp e)) 0) with (bs 0). destruct (msm_loop_spec ss ks 0) as [r [-> F]]. rewrite F. reflexivity.
Qed.

Lemma mulm a b : eqm q (mul_mod a b q) (a * b). Proof. apply eqm_mod. Qed.
Lemma addm a b : eqm q (add_mod a b q) (a + b). Proof. apply eqm_mod. Qed.
Lemma subm a b : eqm q (sub_mod a b q) (a - b). Proof. apply eqm_mod. Qed.

Lemma inner_loop a : forall b acc, length a = length b ->
  eqm q (fold_left (fun r p => add_mod r (mul_mod (fst p) (snd p) q) q) (combine a b) acc) (acc + dot a b).
Proof.
  induction a as [|x a IH]; intros [|y b] acc E; try discriminate; cbn [combine fold_left fst snd dot]; [mring|].
  cbn [length] in E. rewrite IH by lia. rewrite addm, mulm. mring.
Qed.
Lemma inner_spec a b : length a = length b -> eqm q (inner_product e a b) (dot a b).
Proof. intros E. unfold inner_product. rewrite inner_loop by exact E. mring. Qed.

(** ** The inner product argument *)
Definition eff (f : option (list Z)) (ks : list Z) : list Z := match f with None => ks | Some f => had f ks end.
Definition flen (f : option (list Z)) (k : nat) : Prop := match f with None => True | Some f => length f = k end.

Lemma halves_app {A} (l : list A) : fst (halves l) ++ snd (halves l) = l.
Proof. apply firstn_skipn. Qed.
Lemma halves_len {A} (l : list A) h : length l = (2 * h)%nat -> length (fst (halves l)) = h /\ length (snd (halves l)) = h.
Proof.
  intros E. unfold halves. cbn [fst snd]. rewrite firstn_length, skipn_length, E.
  replace (2 * h / 2)%nat with h by (rewrite Nat.mul_comm, Nat.div_mul; lia). lia.
Qed.
Lemma halves_map {A B} (f : A -> B) l : halves (map f l) = (map f (fst (halves l)), map f (snd (halves l))).
Proof. unfold halves. cbn [fst snd]. rewrite map_length, firstn_map, skipn_map. reflexivity. Qed.
Lemma had_app a b c d : length a = length c -> had (a ++ b) (c ++ d) = had a c ++ had b d.
Proof.
  unfold had. revert c. induction a as [|x a IH]; intros [|y c] E; try discriminate; [reflexivity|].
  cbn [app combine map]. cbn [length] in E. f_equal. apply IH. lia.
Qed.
Lemma halves_split {A} (x y : list A) : length x = length y -> halves (x ++ y) = (x, y).
Proof.
  intros E. unfold halves. rewrite app_length, E. replace ((length y + length y) / 2)%nat with (length y).
  2:{ replace (length y + length y)%nat with (length y * 2)%nat by lia. rewrite Nat.div_mul; lia. }
  rewrite firstn_app, skipn_app, <- E, Nat.sub_diag, firstn_all, skipn_all, app_nil_r. reflexivity.
Qed.
Lemma eff_halves f ks h : length ks = (2 * h)%nat -> flen f (2 * h) ->
  fst (halves (eff f ks)) = eff (half_of f false) (fst (halves ks)) /\
  snd (halves (eff f ks)) = eff (half_of f true) (snd (halves ks)).
Proof.
  intros E F. destruct f as [f|]; [|split; reflexivity]. cbn [flen] in F. cbn [eff half_of].
  destruct (halves_len ks h E) as [A B]. destruct (halves_len f h F) as [C D].
  assert (K : halves (had f ks) = (had (fst (halves f)) (fst (halves ks)), had (snd (halves f)) (snd (halves ks)))).
  { rewrite <- (halves_app ks) at 1. rewrite <- (halves_app f) at 1.
    rewrite had_app by congruence. apply halves_split. rewrite !had_length. lia. }
  rewrite K. split; reflexivity.
Qed.
Lemma half_flen f h s : flen f (2 * h) -> flen (half_of f s) h.
Proof. destruct f as [f|]; cbn [flen half_of]; [|tauto]. intros E. destruct (halves_len f h E). destruct s; assumption. Qed.
Lemma wf_length xs f k : length xs = k -> flen f k -> length (with_factors e xs f) = k.
Proof.
  intros E F. destruct f as [f|]; cbn [with_factors flen] in *; [|exact E]. rewrite map_length, combine_length. lia.
Qed.
Lemma wf_dot xs f ks : length xs = length ks -> flen f (length ks) ->
  eqm q (dot (with_factors e xs f) ks) (dot xs (eff f ks)).
Proof.
  intros E F. destruct f as [f|]; cbn [with_factors eff flen] in *; [|reflexivity].
  rewrite <- dot_had by congruence. apply dot_eqm; [|apply eqms_refl]. unfold had.
  apply eqms_map2 with (f := fun a b => mul_mod a b q) (g := Z.mul); try apply eqms_refl. intros a b c d A B. rewrite mulm, A, B. reflexivity.
Qed.

Lemma round_spec t gf hf gk hk a b h :
  length gk = (2 * h)%nat -> length hk = (2 * h)%nat -> length a = (2 * h)%nat -> length b = (2 * h)%nat ->
  flen gf (2 * h) -> flen hf (2 * h) ->
  exists l r, round_LR e (bs t) gf hf (map bs gk) (map bs hk) a b = Val (bs l, bs r) /\
    eqm q l (dot (fst (halves a)) (snd (halves (eff gf gk))) + dot (snd (halves b)) (fst (halves (eff hf hk)))
             + t * dot (fst (halves a)) (snd (halves b))) /\
    eqm q r (dot (snd (halves a)) (fst (halves (eff gf gk))) + dot (fst (halves b)) (snd (halves (eff hf hk)))
             + t * dot (snd (halves a)) (fst (halves b))).
Proof.
  intros Lg Lh La Lb Fg Fh.
  destruct (eff_halves gf gk h Lg Fg) as [-> ->]. destruct (eff_halves hf hk h Lh Fh) as [-> ->].
  unfold round_LR. rewrite !halves_map.
  destruct (halves_len a h La) as [A1 A2]. destruct (halves_len b h Lb) as [B1 B2].
  destruct (halves_len gk h Lg) as [G1 G2]. destruct (halves_len hk h Lh) as [H1 H2].
  destruct (halves a) as [aL aR]. destruct (halves b) as [bL bR]. destruct (halves gk) as [gL gR]. destruct (halves hk) as [hL hR].
  cbn [fst snd] in *.
  pose proof (half_flen gf h false Fg) as Fg0. pose proof (half_flen gf h true Fg) as Fg1.
  pose proof (half_flen hf h false Fh) as Fh0. pose proof (half_flen hf h true Fh) as Fh1.
  change [bs t] with (map bs [t]). rewrite <- !map_app.
  rewrite !msm_spec by (rewrite !app_length; cbn [length]; rewrite !(wf_length _ _ h) by assumption; lia).
  cbn [bind]. eexists. eexists. split; [reflexivity|].
  rewrite !dot_app by (rewrite ?(wf_length _ _ h) by assumption; congruence). cbn [dot].
  rewrite !wf_dot by (first [congruence | rewrite ?G1, ?G2, ?H1, ?H2; assumption]).
  rewrite !inner_spec by congruence. split; mring.
Qed.

Lemma fold_scalars_spec u v x y : length x = length y -> Forall2 (eqm q) (fold_scalars e u v x y) (lin u v x y).
Proof.
  intros _. unfold fold_scalars, lin.
  apply eqms_map2 with (f := fun a b => add_mod (mul_mod a u q) (mul_mod b v q) q) (g := fun a b => a * u + b * v); try apply eqms_refl.
  intros a b c d A B. rewrite addm, !mulm, A, B. reflexivity.
Qed.
Lemma fold_points_loop : forall cl cr kl kr, length cl = length kl -> length cr = length kl -> length kr = length kl ->
  fold_right (fun p acc => bind (msm e [fst (fst p); snd (fst p)] [fst (snd p); snd (snd p)]) (fun x => bind acc (fun l => Val (x :: l))))
             (Val []) (combine (combine cl cr) (combine (map bs kl) (map bs kr))) =
  Val (map bs (map (fun p => fst (fst p) * fst (snd p) + snd (fst p) * snd (snd p)) (combine (combine cl cr) (combine kl kr)))).
Proof.
  induction cl as [|x cl IH]; intros [|y cr] [|z kl] [|w kr] A B C; try discriminate; [reflexivity|].
  cbn [map combine fold_right fst snd]. cbn [length] in *. rewrite IH by lia.
  change [bs z; bs w] with (map bs [z; w]). rewrite msm_spec by reflexivity. cbn [bind dot map]. do 3 f_equal. lia.
Qed.
Lemma fold_points_spec cL cR f kl kr h : length kl = h -> length kr = h -> flen f (2 * h) ->
  exists ks, fold_points e cL cR f (map bs kl) (map bs kr) = Val (map bs ks) /\ length ks = h /\
    Forall2 (eqm q) ks (lin cL cR (eff (half_of f false) kl) (eff (half_of f true) kr)).
Proof.
  intros A B F. unfold fold_points.
  set (lf := match half_of f false with None => map (fun _ => cL) (map bs kl) | Some f0 => map (fun x => mul_mod cL x q) f0 end).
  set (rf := match half_of f true with None => map (fun _ => cR) (map bs kr) | Some f0 => map (fun x => mul_mod cR x q) f0 end).
  pose proof (half_flen f h false F) as F0. pose proof (half_flen f h true F) as F1.
  assert (Ll : length lf = h) by (subst lf; destruct f; cbn [half_of flen] in *; rewrite !map_length; congruence).
  assert (Lr : length rf = h) by (subst rf; destruct f; cbn [half_of flen] in *; rewrite !map_length; congruence).
  rewrite fold_points_loop by congruence. eexists. split; [reflexivity|]. split.
  { rewrite map_length, !combine_length. lia. }
  assert (El : Forall2 (eqm q) (map (fun p => fst p * snd p) (combine lf kl)) (scale cL (eff (half_of f false) kl))).
  { subst lf. destruct f as [f|]; cbn [half_of flen eff] in *.
    - unfold scale, had. clear -F0 A. revert kl h F0 A. generalize (fst (halves f)) as g. induction g as [|x g IH]; intros [|y kl] h F A; cbn in *; subst; try discriminate; [constructor|].
      constructor; [rewrite mulm; mring|]. eapply IH; [reflexivity|]. lia.
    - clear. unfold scale. induction kl as [|x kl IH]; cbn; constructor; [reflexivity|exact IH]. }
  assert (Er : Forall2 (eqm q) (map (fun p => fst p * snd p) (combine rf kr)) (scale cR (eff (half_of f true) kr))).
  { subst rf. destruct f as [f|]; cbn [half_of flen eff] in *.
    - unfold scale, had. clear -F1 B. revert kr h F1 B. generalize (snd (halves f)) as g. induction g as [|x g IH]; intros [|y kl] h F A; cbn in *; subst; try discriminate; [constructor|].
      constructor; [rewrite mulm; mring|]. eapply IH; [reflexivity|]. lia.
    - clear. unfold scale. induction kr as [|x kl IH]; cbn; constructor; [reflexivity|exact IH]. }
  revert El Er. generalize (eff (half_of f false) kl) (eff (half_of f true) kr). clearbody lf rf. clear F F0 F1.
  intros gl gr El Er. pose proof (eqms_length El) as E1. pose proof (eqms_length Er) as E2. unfold scale in E1, E2.
  rewrite !map_length, combine_length in E1, E2.
  assert (Lgl : length gl = h) by lia. assert (Lgr : length gr = h) by lia. clear E1 E2.
  revert rf kl kr gl gr h A B Ll Lr El Er Lgl Lgr. unfold scale, lin.
  induction lf as [|x lf IH]; intros [|y rf] [|z kl] [|w kr] [|g gl] [|g' gr] h A B Ll Lr El Er Lgl Lgr; cbn [length] in *; subst h; try discriminate; [constructor|].
  cbn [combine map fst snd] in *. inversion El; subst. inversion Er; subst. constructor.
  - match goal with A : eqm q (x * z) _, B : eqm q (y * w) _ |- _ => rewrite A, B end. mring.
  - eapply IH; try eassumption; try reflexivity; lia.
Qed.

(** ** The vector s *)
Fixpoint svec (us vs : list Z) : list Z :=
  match us, vs with
  | u :: us', v :: vs' => scale v (svec us' vs') ++ scale u (svec us' vs')
  | _, _ => [1]
  end.
Definition inv_pairs (us vs : list Z) : Prop := Forall2 (fun u v => eqm q (u * v) 1) us vs.
Lemma svec_length us : forall vs, length us = length vs -> length (svec us vs) = Nat.pow 2 (length us).
Proof.
  unfold scale. induction us as [|u us IH]; intros [|v vs] E; try discriminate; [reflexivity|]. cbn [svec length] in *.
  unfold scale. rewrite app_length, !map_length, IH by lia. cbn [Nat.pow]. lia.
Qed.
Lemma svec_rev us : forall vs, length us = length vs -> rev (svec us vs) = svec vs us.
Proof.
  induction us as [|u us IH]; intros [|v vs] E; try discriminate; [reflexivity|]. cbn [svec length] in *.
  unfold scale. rewrite rev_app_distr, <- !map_rev, IH by lia. reflexivity.
Qed.
Lemma svec_dot u v us vs g : length us = length vs -> length g = (2 * Nat.pow 2 (length us))%nat ->
  dot (svec (u :: us) (v :: vs)) g = dot (svec us vs) (lin v u (fst (halves g)) (snd (halves g))).
Proof.
  intros E F. cbn [svec]. destruct (halves_len g _ F) as [A B].
  rewrite <- (halves_app g) at 1. rewrite dot_app by (unfold scale; rewrite map_length, svec_length; congruence).
  rewrite dot_lin_r by congruence. rewrite !dot_scale_l. reflexivity.
Qed.

Definition prodl (l : list Z) : Z := fold_right Z.mul 1 l.
Lemma prodl_app a b : prodl (a ++ b) = prodl a * prodl b.
Proof. unfold prodl. induction a as [|x a IH]; cbn [app fold_right]; [lia|]. rewrite IH. ring. Qed.
Lemma s0_spec vs : forall acc, eqm q (fold_left (fun s v => mul_mod s v q) vs acc) (acc * prodl vs).
Proof.
  unfold prodl. induction vs as [|v vs IH]; intros acc; cbn [fold_left fold_right]; [mring|]. rewrite IH, mulm. mring.
Qed.

Definition s_step (lg : nat) (u_sq : list Z) (s : list Z) (i : nat) : list Z :=
  s ++ [mul_mod (nth (i - Nat.pow 2 (Nat.log2 i)) s 0) (nth (lg - 1 - Nat.log2 i) u_sq 0) q].
Lemma s_level lg u_sq j T : length T = Nat.pow 2 j -> forall d, (d <= Nat.pow 2 j)%nat ->
  fold_left (s_step lg u_sq) (seq (Nat.pow 2 j) d) T =
  T ++ map (fun x => mul_mod x (nth (lg - 1 - j) u_sq 0) q) (firstn d T).
Proof.
  intros E. induction d as [|d IH]; intros D; [cbn; rewrite app_nil_r; reflexivity|].
  rewrite seq_S, fold_left_app, IH by lia. cbn [fold_left]. unfold s_step at 1.
  assert (K : Nat.log2 (Nat.pow 2 j + d) = j).
  { apply Nat.log2_unique; [lia|]. cbn [Nat.pow]. lia. }
  rewrite K. replace (Nat.pow 2 j + d - Nat.pow 2 j)%nat with d by lia.
  rewrite app_nth1 by lia. rewrite <- app_assoc. f_equal.
  assert (F : firstn (S d) T = firstn d T ++ [nth d T 0]).
  { rewrite <- (firstn_skipn d T) at 1. rewrite firstn_app, firstn_firstn. rewrite firstn_length_le by lia.
    replace (Nat.min (S d) d) with d by lia. f_equal. replace (S d - d)%nat with 1%nat by lia.
    rewrite <- (firstn_skipn d T) at 2. rewrite app_nth2 by (rewrite firstn_length_le; lia). rewrite firstn_length_le, Nat.sub_diag by lia.
    destruct (skipn d T) as [|x l] eqn:S; [|reflexivity]. apply (f_equal (@length Z)) in S. rewrite skipn_length in S. cbn in S. lia. }
  rewrite F, map_app. reflexivity.
Qed.
Lemma s_levels lg u_sq T0 : length T0 = 1%nat -> forall j,
  fold_left (s_step lg u_sq) (seq 1 (Nat.pow 2 j - 1)) T0 =
  Nat.recursion T0 (fun i T => T ++ map (fun x => mul_mod x (nth (lg - 1 - i) u_sq 0) q) T) j /\
  length (fold_left (s_step lg u_sq) (seq 1 (Nat.pow 2 j - 1)) T0) = Nat.pow 2 j.
Proof.
  intros E. induction j as [|j [IH IL]]; [split; [reflexivity|exact E]|].
  assert (P : (0 < Nat.pow 2 j)%nat) by (apply Nat.neq_0_lt_0, Nat.pow_nonzero; lia).
  replace (Nat.pow 2 (S j) - 1)%nat with ((Nat.pow 2 j - 1) + Nat.pow 2 j)%nat by (cbn [Nat.pow]; lia).
  rewrite seq_app, fold_left_app. replace (1 + (Nat.pow 2 j - 1))%nat with (Nat.pow 2 j) by lia.
  cbn [Nat.recursion nat_rect]. rewrite s_level by (exact IL || lia).
  rewrite firstn_all2 by lia. rewrite app_length, map_length, IL. split; [rewrite IH; reflexivity|cbn [Nat.pow]; lia].
Qed.
Lemma s_loop_spec us vs s0 : inv_pairs us vs -> eqm q s0 (prodl vs) ->
  Forall2 (eqm q) (s_loop e (length us) (map (fun u => mul_mod u u q) us) (Nat.pow 2 (length us)) s0) (svec us vs).
Proof.
  intros I Hs. change (s_loop e (length us) (map (fun u => mul_mod u u q) us) (Nat.pow 2 (length us)) s0)
    with (fold_left (s_step (length us) (map (fun u => mul_mod u u q) us)) (seq 1 (Nat.pow 2 (length us) - 1)) [s0]).
  destruct (s_levels (length us) (map (fun u => mul_mod u u q) us) [s0] eq_refl (length us)) as [-> _].
  set (lg := length us). set (u_sq := map (fun u => mul_mod u u q) us).
  assert (K : forall us2 vs2 us1 vs1, us = us1 ++ us2 -> vs = vs1 ++ vs2 -> length us1 = length vs1 -> length us2 = length vs2 ->
    Forall2 (eqm q) (Nat.recursion [s0] (fun i T => T ++ map (fun x => mul_mod x (nth (lg - 1 - i) u_sq 0) q) T) (length us2))
                    (scale (prodl vs1) (svec us2 vs2))).
  { induction us2 as [|u us2 IH]; intros [|v vs2] us1 vs1 E F L1 L2; try discriminate.
    - cbn. constructor; [|constructor]. rewrite app_nil_r in F. subst vs1. rewrite Hs. mring.
    - cbn [length] in L2. cbn [length Nat.recursion nat_rect svec].
      specialize (IH vs2 (us1 ++ [u]) (vs1 ++ [v])).
      rewrite <- !app_assoc in IH. cbn [app] in IH. rewrite !app_length in IH. cbn [length] in IH.
      specialize (IH E F ltac:(lia) ltac:(lia)).
      rewrite prodl_app in IH. cbn [prodl fold_right] in IH.
      assert (N : nth (lg - 1 - length us2) u_sq 0 = mul_mod u u q).
      { subst lg u_sq. rewrite E, app_length. cbn [length]. rewrite map_app. cbn [map].
        rewrite app_nth2; rewrite map_length; [|lia]. replace (length us1 + S (length us2) - 1 - length us2 - length us1)%nat with 0%nat by lia. reflexivity. }
      assert (UV : eqm q (u * v) 1).
      { clear -I E F L1. unfold inv_pairs in I. subst us vs. apply Forall2_app_inv_l in I. destruct I as [a [b [I1 [I2 EE]]]].
        assert (length us1 = length a) by (clear -I1; induction I1; cbn; congruence).
        assert (a = vs1 /\ b = v :: vs2) as [-> ->].
        { clear -EE H L1. assert (length a = length vs1) by congruence. clear -EE H0. revert vs1 EE H0. induction a as [|x a IH]; intros [|y vs1] EE L; try discriminate; [split; [reflexivity|cbn in EE; congruence]|].
          cbn in EE. injection EE as -> EE. destruct (IH vs1 (eq_sym (eq_sym EE)) ltac:(cbn in L; lia)) as [-> ->]. split; reflexivity. }
        inversion I2; subst. assumption. }
      unfold scale. rewrite map_app, !map_map. apply eqms_app.
      + eapply eqms_trans; [exact IH|]. unfold scale. apply eqms_map; [|apply eqms_refl]. intros a c A. rewrite A. mring.
      + rewrite N. unfold scale in IH.
        apply eqms_trans with (b := map (fun x => mul_mod x (mul_mod u u q) q) (map (Z.mul (prodl vs1 * (v * 1))) (svec us2 vs2))).
        * apply eqms_map; [|exact IH]. intros a c A. rewrite (mulm a), (mulm c), A. reflexivity.
        * rewrite map_map. apply eqms_map; [|apply eqms_refl]. intros a c A. rewrite !mulm, A.
          transitivity (prodl vs1 * u * c * (u * v)); [mring|]. rewrite UV. mring. }
  assert (LL : length us = length vs) by (clear -I; induction I; cbn; congruence).
  specialize (K us vs [] [] eq_refl eq_refl eq_refl LL). eapply eqms_trans; [exact K|].
  unfold scale. rewrite <- (map_id (svec us vs)) at 2. apply eqms_map; [|apply eqms_refl]. intros a c A. cbn [prodl fold_right]. rewrite A. mring.
Qed.

(** ** The recursion *)
Definition sq (us : list Z) : list Z := map (fun u => u * u) us.
(** The challenges of a run: what the transcript gives for the points L and R. *)
Fixpoint run_challenges (st : list Z) (LR : list (pt * pt)) : list Z :=
  match LR with
  | [] => []
  | (L, R) :: LR' =>
      let st := append_point e (append_point e st (text "L") L) (text "R") R in
      snd (challenge_scalar e st (text "u")) :: run_challenges (fst (challenge_scalar e st (text "u"))) LR'
  end.
Lemma recompute_spec LR : forall st,
  (exists st', recompute_challenges e st LR = Val (st', run_challenges st LR) /\
      Forall (fun p => c_inf e (fst p) = false /\ c_inf e (snd p) = false) LR) \/
  (recompute_challenges e st LR = Thrown /\ Exists (fun p => c_inf e (fst p) = true \/ c_inf e (snd p) = true) LR).
Proof.
  induction LR as [|[L R] LR IH]; intros st; [constructor; exists st; split; [reflexivity|constructor]|].
  cbn [recompute_challenges run_challenges].
  assert (V : forall st label P, validate_append e st label P = if c_inf e P then Thrown else Val (append_point e st label P)) by reflexivity.
  rewrite V. destruct (c_inf e L) eqn:EL.
  { constructor 2. split; [reflexivity|]. constructor. constructor. exact EL. }
  cbn [bind]. rewrite V. destruct (c_inf e R) eqn:ER.
  { constructor 2. split; [reflexivity|]. constructor. constructor 2. exact ER. }
  cbn [bind]. destruct (challenge_scalar e (append_point e (append_point e st (text "L") L) (text "R") R) (text "u")) as [st2 u]. cbn [fst snd].
  destruct (IH st2) as [[st' [E F]]|[E F]]; rewrite E; cbn [bind].
  - constructor. exists st'. split; [reflexivity|]. constructor; [split; assumption|exact F].
  - constructor 2. split; [reflexivity|]. constructor 2. exact F.
Qed.
Lemma invert_all_spec us vs : Forall2 (fun u v => invert_mod u q = Some v) us vs -> invert_all e us = Val vs.
Proof. induction 1 as [|u v us vs E _ IH]; [reflexivity|]. cbn [invert_all]. rewrite E, IH. reflexivity. Qed.
Lemma invert_all_pairs us : forall vs, invert_all e us = Val vs -> inv_pairs us vs.
Proof.
  induction us as [|u us IH]; intros vs E; cbn [invert_all] in E; [injection E as <-; constructor|].
  destruct (invert_mod u q) as [v|] eqn:Ev; [|discriminate]. destruct (invert_all e us) as [ws| | |]; try discriminate.
  cbn [bind] in E. injection E as <-. constructor; [apply (invert_mod_some _ _ _ Ev)|apply IH; reflexivity].
Qed.

Lemma create_loop_spec : forall lg fuel st t gf hf gk hk a b st' p,
  length gk = Nat.pow 2 lg -> length hk = Nat.pow 2 lg -> length a = Nat.pow 2 lg -> length b = Nat.pow 2 lg ->
  flen gf (Nat.pow 2 lg) -> flen hf (Nat.pow 2 lg) ->
  create_loop e fuel st (bs t) gf hf (map bs gk) (map bs hk) a b = Val (st', p) ->
  exists ls rs vs, i_L p = map bs ls /\ i_R p = map bs rs /\ length ls = lg /\ length rs = lg /\
    let us := run_challenges st (combine (i_L p) (i_R p)) in
    Forall2 (fun u v => invert_mod u q = Some v) us vs /\ length us = lg /\
    eqm q (dot a (eff gf gk) + dot b (eff hf hk) + t * dot a b + dot (sq us) ls + dot (sq vs) rs)
          (i_a p * dot (svec us vs) (eff gf gk) + i_b p * dot (svec vs us) (eff hf hk) + t * (i_a p * i_b p)).
Proof.
  induction lg as [|lg IH]; intros fuel st t gf hf gk hk a b st' p Lg Lh La Lb Fg Fh E.
  - destruct fuel as [|fuel]; [discriminate|]. cbn [create_loop] in E. rewrite map_length, Lg in E. cbn [Nat.pow Nat.leb] in E.
    injection E as <- <-. exists [], [], []. cbn [i_L i_R i_a i_b map combine run_challenges length].
    repeat (split; [first [reflexivity|constructor]|]).
    destruct a as [|a0 [|]]; try discriminate La. destruct b as [|b0 [|]]; try discriminate Lb.
    assert (G1 : length (eff gf gk) = 1%nat) by (destruct gf; cbn [eff flen] in *; rewrite ?had_length; cbn [Nat.pow] in *; lia).
    assert (H1 : length (eff hf hk) = 1%nat) by (destruct hf; cbn [eff flen] in *; rewrite ?had_length; cbn [Nat.pow] in *; lia).
    destruct (eff gf gk) as [|g0 [|]]; try discriminate G1. destruct (eff hf hk) as [|h0 [|]]; try discriminate H1.
    cbn [nth svec dot sq map]. mring.
  - destruct fuel as [|fuel]; [discriminate|]. cbn [create_loop] in E.
    assert (P : (0 < Nat.pow 2 lg)%nat) by (apply Nat.neq_0_lt_0, Nat.pow_nonzero; lia).
    rewrite map_length, Lg in E. destruct (Nat.leb_spec (Nat.pow 2 (S lg)) 1) as [K|_]; [cbn [Nat.pow] in K; lia|].
    change (Nat.pow 2 (S lg)) with (2 * Nat.pow 2 lg)%nat in *. set (h := Nat.pow 2 lg) in *.
    destruct (round_spec t gf hf gk hk a b h Lg Lh La Lb Fg Fh) as [l [r [ER [El Er]]]].
    rewrite ER in E. cbn [bind] in E.
    destruct (challenge_scalar e (append_point e (append_point e st (text "L") (bs l)) (text "R") (bs r)) (text "u")) as [st2 u] eqn:EC.
    destruct (invert_mod u q) as [v|] eqn:Ev; [|discriminate].
    rewrite !halves_map in E.
    destruct (eff_halves gf gk h Lg Fg) as [EGl EGr]. destruct (eff_halves hf hk h Lh Fh) as [EHl EHr].
    destruct (halves_len a h La) as [A1 A2]. destruct (halves_len b h Lb) as [B1 B2].
    destruct (halves_len gk h Lg) as [G1 G2]. destruct (halves_len hk h Lh) as [H1 H2].
    destruct (fold_points_spec v u gf _ _ h G1 G2 Fg) as [gk' [EG' [LG' MG']]].
    destruct (fold_points_spec u v hf _ _ h H1 H2 Fh) as [hk' [EH' [LH' MH']]].
    destruct (halves a) as [aL aR] eqn:Ha. destruct (halves b) as [bL bR] eqn:Hb.
    destruct (halves gk) as [gL gR] eqn:Hg. destruct (halves hk) as [hL hR] eqn:Hh. cbn [fst snd] in *.
    rewrite EG', EH' in E. cbn [bind] in E.
    assert (LA : length (fold_scalars e u v aL aR) = h) by (unfold fold_scalars; rewrite map_length, combine_length; lia).
    assert (LB : length (fold_scalars e v u bL bR) = h) by (unfold fold_scalars; rewrite map_length, combine_length; lia).
    destruct (create_loop e fuel st2 (bs t) None None (map bs gk') (map bs hk') (fold_scalars e u v aL aR) (fold_scalars e v u bL bR))
      as [[st3 p']| | |] eqn:EP; try discriminate. cbn [bind] in E. injection E as <- <-.
    destruct (IH fuel st2 t None None gk' hk' _ _ st3 p' LG' LH' LA LB I I EP) as [ls [rs [vs [E1 [E2 [L1 [L2 [IV [LU EQ]]]]]]]]].
    cbn [i_L i_R i_a i_b]. exists (l :: ls), (r :: rs), (v :: vs). rewrite E1, E2. cbn [map combine length].
    do 2 (split; [reflexivity|]). do 2 (split; [lia|]).
    cbn [run_challenges]. rewrite EC. cbn [fst snd].
    rewrite E1, E2 in IV, LU, EQ. set (us := run_challenges st2 (combine (map bs ls) (map bs rs))) in *.
    split; [constructor; assumption|]. split; [cbn [length]; lia|].
    assert (LV : length vs = lg) by (rewrite <- LU; clear -IV; induction IV; cbn; congruence).
    assert (LeG : length (eff gf gk) = (2 * h)%nat) by (destruct gf; cbn [eff flen] in *; rewrite ?had_length; lia).
    assert (LeH : length (eff hf hk) = (2 * h)%nat) by (destruct hf; cbn [eff flen] in *; rewrite ?had_length; lia).
    rewrite (svec_dot u v us vs) by (subst h; rewrite ?LU; congruence).
    rewrite (svec_dot v u vs us) by (subst h; rewrite ?LV; congruence).
    destruct (halves_len (eff gf gk) h LeG) as [X1 X2]. destruct (halves_len (eff hf hk) h LeH) as [X3 X4].
    rewrite <- EGl, <- EGr in MG'. rewrite <- EHl, <- EHr in MH'.
    cbn [eff] in EQ.
    pose proof (fold_scalars_spec u v aL aR ltac:(congruence)) as MA.
    pose proof (fold_scalars_spec v u bL bR ltac:(congruence)) as MB.
    rewrite (dot_eqm q _ _ MA _ _ MG') in EQ. rewrite (dot_eqm q _ _ MB _ _ MH') in EQ. rewrite (dot_eqm q _ _ MA _ _ MB) in EQ.
    rewrite (dot_eqm q _ _ (eqms_refl q (svec us vs)) _ _ MG') in EQ.
    rewrite (dot_eqm q _ _ (eqms_refl q (svec vs us)) _ _ MH') in EQ.
    rewrite <- EQ. clear EQ EP EG' EH' MG' MH' MA MB IH ER.
    destruct (invert_mod_some _ _ _ Ev) as [_ UV].
    set (gl := fst (halves (eff gf gk))) in *. set (gr := snd (halves (eff gf gk))) in *.
    set (hl := fst (halves (eff hf hk))) in *. set (hr := snd (halves (eff hf hk))) in *.
    assert (SG : dot a (eff gf gk) = dot aL gl + dot aR gr).
    { rewrite <- (halves_app a), <- (halves_app (eff gf gk)), Ha. cbn [fst snd]. apply dot_app. congruence. }
    assert (SH : dot b (eff hf hk) = dot bL hl + dot bR hr).
    { rewrite <- (halves_app b), <- (halves_app (eff hf hk)), Hb. cbn [fst snd]. apply dot_app. congruence. }
    assert (SAB : dot a b = dot aL bL + dot aR bR).
    { rewrite <- (halves_app a), <- (halves_app b), Ha, Hb. cbn [fst snd]. apply dot_app. congruence. }
    rewrite SG, SH, SAB. rewrite !dot_lin_l by congruence. rewrite !dot_lin_r by congruence.
    cbn [sq map dot]. fold (sq us) (sq vs). rewrite El, Er.
    rewrite (dot_comm aR bL).
    transitivity (u * v * (dot aL gl + dot aR gr + dot bL hl + dot bR hr + t * (dot aL bL + dot aR bR))
       + u * u * (dot aL gr + dot bR hl + t * dot aL bR) + v * v * (dot aR gl + dot bL hr + t * dot bL aR)
       + dot (sq us) ls + dot (sq vs) rs); [rewrite UV; mring|].
    rewrite ?(dot_comm aR bL). mring.
Qed.

Lemma pairs_of us vs : Forall2 (fun u v => invert_mod u q = Some v) us vs -> inv_pairs us vs.
Proof. intros F. unfold inv_pairs. induction F as [|u v us vs E _ IH]; constructor; [apply (invert_mod_some _ _ _ E)|exact IH]. Qed.
Lemma scalars_spec p st lg vs : length (i_L p) = lg -> length (i_R p) = lg -> (lg < 32)%nat ->
  Forall2 (fun u v => invert_mod u q = Some v) (run_challenges (ipp_sep e st (Nat.pow 2 lg)) (combine (i_L p) (i_R p))) vs ->
  if existsb (c_inf e) (i_L p ++ i_R p) then verification_scalars e p (Nat.pow 2 lg) st = Thrown
  else exists st' s, let us := run_challenges (ipp_sep e st (Nat.pow 2 lg)) (combine (i_L p) (i_R p)) in
    verification_scalars e p (Nat.pow 2 lg) st =
      Val (st', (map (fun u => mul_mod u u q) us, map (fun u => mul_mod u u q) vs, s)) /\
    Forall2 (eqm q) s (svec us vs).
Proof.
  intros E1 E2 L F. unfold verification_scalars. rewrite E1, E2, Nat.eqb_refl.
  destruct (Nat.ltb_spec lg 32) as [_|K]; [|lia]. rewrite Nat.eqb_refl. cbn [andb].
  set (us := run_challenges (ipp_sep e st (Nat.pow 2 lg)) (combine (i_L p) (i_R p))) in *.
  assert (X : forall (ls rs : list pt), length ls = length rs ->
     existsb (c_inf e) (ls ++ rs) = existsb (fun p => c_inf e (fst p) || c_inf e (snd p)) (combine ls rs)).
  { induction ls as [|l ls IH]; intros [|r rs] EL; try discriminate; [reflexivity|]. cbn [length] in EL. specialize (IH rs ltac:(lia)).
    rewrite existsb_app in *. cbn [existsb combine fst snd]. rewrite <- IH.
    destruct (c_inf e l), (c_inf e r), (existsb (c_inf e) ls); reflexivity. }
  rewrite X by congruence.
  destruct (recompute_spec (combine (i_L p) (i_R p)) (ipp_sep e st (Nat.pow 2 lg))) as [[st' [ER NI]]|[ER NI]]; rewrite ER; cbn [bind].
  - replace (existsb _ _) with false.
    2:{ symmetry. apply not_true_is_false. intros T. apply existsb_exists in T. destruct T as [[l r] [In B]].
        rewrite Forall_forall in NI. destruct (NI _ In) as [N1 N2]. cbn [fst snd] in *. rewrite N1, N2 in B. discriminate. }
    fold us. rewrite (invert_all_spec us vs F). cbn [bind]. eexists. eexists. split; [reflexivity|].
    assert (LU : length us = lg).
    { subst us. clear -E1 E2. generalize (ipp_sep e st (Nat.pow 2 lg)) as s0.
      replace lg with (length (combine (i_L p) (i_R p))) by (rewrite combine_length; lia). induction (combine (i_L p) (i_R p)) as [|[l r] LR IH]; intros s0; [reflexivity|].
      cbn [run_challenges length]. rewrite IH. reflexivity. }
    rewrite <- LU. apply s_loop_spec; [apply pairs_of; exact F|]. rewrite s0_spec. mring.
  - replace (existsb _ _) with true; [reflexivity|]. symmetry. apply existsb_exists. apply Exists_exists in NI.
    destruct NI as [[l r] [In B]]. exists (l, r). split; [exact In|]. cbn [fst snd] in *. apply orb_true_iff. exact B.
Qed.

(** The statement of the argument, over points. *)
Definition lincomb (ss : list Z) (ps : list pt) : pt :=
  fold_right (fun p acc => g_add (grp e) (g_mul (grp e) (snd p) (fst p)) acc) (g_mul (grp e) (g_base (grp e)) 0) (combine ss ps).
Lemma lincomb_spec ss : forall ks, lincomb ss (map bs ks) = bs (dot ss ks).
Proof.
  unfold lincomb. induction ss as [|s ss IH]; intros [|k ks]; try reflexivity. cbn [map combine fold_right fst snd dot].
  rewrite IH, bs_mul, bs_add. f_equal. lia.
Qed.
Lemma ipa_core st t gf hf gk hk a b st' p : (Z.of_nat (length gk) < 2 ^ 32) ->
  create e st (bs t) gf hf (map bs gk) (map bs hk) a b = Val (st', p) ->
  exists lg ls rs vs, length gk = Nat.pow 2 lg /\ (lg < 32)%nat /\ length hk = length gk /\ length a = length gk /\ length b = length gk /\
    length gf = length gk /\ length hf = length gk /\
    i_L p = map bs ls /\ i_R p = map bs rs /\ length ls = lg /\ length rs = lg /\
    let us := run_challenges (ipp_sep e st (length gk)) (combine (i_L p) (i_R p)) in
    Forall2 (fun u v => invert_mod u q = Some v) us vs /\ length us = lg /\
    eqm q (dot a (had gf gk) + dot b (had hf hk) + t * dot a b + dot (sq us) ls + dot (sq vs) rs)
          (i_a p * dot (svec us vs) (had gf gk) + i_b p * dot (svec vs us) (had hf hk) + t * (i_a p * i_b p)).
Proof.
  intros B E. unfold create in E. rewrite !map_length in E.
  destruct (is_power_of_two (length gk)) eqn:P; cbn [andb] in E; [|discriminate].
  unfold is_power_of_two in P. apply andb_true_iff in P. destruct P as [_ P]. apply Nat.eqb_eq in P.
  set (lg := Nat.log2 (length gk)) in *.
  destruct (Nat.eqb_spec (length hk) (length gk)) as [Eh|]; cbn [andb] in E; [|discriminate].
  destruct (Nat.eqb_spec (length a) (length gk)) as [Ea|]; cbn [andb] in E; [|discriminate].
  destruct (Nat.eqb_spec (length b) (length gk)) as [Eb|]; cbn [andb] in E; [|discriminate].
  destruct (Nat.eqb_spec (length gf) (length gk)) as [Ef|]; cbn [andb] in E; [|discriminate].
  destruct (Nat.eqb_spec (length hf) (length gk)) as [Ehf|]; cbn [andb] in E; [|discriminate].
  assert (L : (lg < 32)%nat).
  { destruct (Nat.lt_ge_cases lg 32) as [X|X]; [exact X|exfalso].
    rewrite <- P in B. rewrite Nat2Z.inj_pow in B. change (Z.of_nat 2) with 2 in B.
    assert (2 ^ 32 <= 2 ^ Z.of_nat lg) by (apply Z.pow_le_mono_r; lia). lia. }
  destruct (create_loop_spec lg (S (length gk)) (ipp_sep e st (length gk)) t (Some gf) (Some hf) gk hk a b st' p
    (eq_sym P) ltac:(congruence) ltac:(congruence) ltac:(congruence) ltac:(cbn [flen]; congruence) ltac:(cbn [flen]; congruence) E)
    as [ls [rs [vs [E1 [E2 [L1 [L2 [IV [LU EQ]]]]]]]]].
  exists lg, ls, rs, vs. repeat (split; [assumption || congruence|]). cbn [eff] in EQ. exact EQ.
Qed.
Lemma neg_dot us ls : eqm q (dot (map (fun x => sub_mod 0 x q) (map (fun u => mul_mod u u q) us)) ls) (- dot (sq us) ls).
Proof.
  transitivity (dot (scale (-1) (sq us)) ls).
  - apply dot_eqm; [|apply eqms_refl]. unfold scale, sq. rewrite !map_map. apply eqms_map; [|apply eqms_refl].
    intros a c A. rewrite subm, mulm, A. mring.
  - rewrite dot_scale_l. mring.
Qed.
Lemma coef_dot c s t f k : Forall2 (eqm q) s t -> length s = length f -> length k = length f ->
  eqm q (dot (map (fun x => mul_mod (mul_mod c (fst x) q) (snd x) q) (combine s f)) k) (c * dot t (had f k)).
Proof.
  intros F E1 E2. rewrite <- dot_had by (rewrite <- (eqms_length F); exact E1). rewrite <- dot_scale_l.
  apply dot_eqm; [|apply eqms_refl]. unfold scale, had. rewrite map_map.
  apply eqms_map2 with (f := fun a b => mul_mod (mul_mod c a q) b q) (g := fun a b => c * (a * b)); [|exact F|apply eqms_refl].
  intros a b a' b' A B. rewrite !mulm, A, B. mring.
Qed.
Lemma ipa_verify st t gf hf gk hk a b st' p P : (Z.of_nat (length gk) < 2 ^ 32) ->
  create e st (bs t) gf hf (map bs gk) (map bs hk) a b = Val (st', p) ->
  verify e p st gf hf P (bs t) (map bs gk) (map bs hk) =
    if existsb (c_inf e) (i_L p ++ i_R p) then Thrown
    else Val (g_eqb (grp e) (bs (dot a (had gf gk) + dot b (had hf hk) + t * dot a b)) P).
Proof.
  intros B E. destruct (ipa_core st t gf hf gk hk a b st' p B E) as
    [lg [ls [rs [vs [K [L [Eh [Ea [Eb [Ef [Ehf [E1 [E2 [L1 [L2 [IV [LU EQ]]]]]]]]]]]]]]]]].
  unfold verify. rewrite map_length.
  pose proof (scalars_spec p st lg vs ltac:(rewrite E1, map_length; exact L1) ltac:(rewrite E2, map_length; exact L2) L) as S.
  rewrite <- K in S. specialize (S IV).
  destruct (existsb (c_inf e) (i_L p ++ i_R p)); [rewrite S; reflexivity|].
  destruct S as [st2 [s [S FS]]]. rewrite S. cbn [bind].
  rewrite Ef, Ehf, Nat.leb_refl. cbn [andb].
  set (us := run_challenges (ipp_sep e st (length gk)) (combine (i_L p) (i_R p))) in *.
  pose proof (pairs_of _ _ IV) as IP. assert (LV : length vs = lg) by (rewrite <- LU; clear -IP; induction IP; cbn; congruence).
  assert (LS : length s = length gk) by (rewrite (eqms_length FS), svec_length, LU; congruence).
  rewrite E1, E2. change [bs t] with (map bs [t]). rewrite <- !(map_app bs).
  rewrite msm_spec.
  2:{ rewrite !app_length, !map_length, !combine_length, rev_length. cbn [length]. lia. }
  cbn [bind]. do 2 f_equal. apply bs_eqm.
  rewrite !dot_app by (rewrite ?map_length, ?combine_length, ?rev_length; cbn [length]; lia).
  rewrite !neg_dot. cbn [dot].
  rewrite (coef_dot _ _ _ _ _ FS) by lia.
  assert (FR : Forall2 (eqm q) (rev s) (svec vs us)).
  { rewrite <- svec_rev by congruence. clear -FS. induction FS as [|x y s t A _ IH]; [constructor|]. cbn [rev]. apply eqms_app; [exact IH|]. constructor; [exact A|constructor]. }
  rewrite (coef_dot _ _ _ _ _ FR) by (rewrite ?rev_length; lia). rewrite mulm.
  transitivity (i_a p * dot (svec us vs) (had gf gk) + i_b p * dot (svec vs us) (had hf hk) + t * (i_a p * i_b p) - dot (sq us) ls - dot (sq vs) rs); [mring|].
  rewrite <- EQ. mring.
Qed.

(** Without a zero challenge Create succeeds. *)
Lemma create_loop_total : (forall st, ~ eqm q (snd (challenge_scalar e st (text "u"))) 0) ->
  forall lg fuel st t gf hf gk hk a b, (lg < fuel)%nat ->
  length gk = Nat.pow 2 lg -> length hk = Nat.pow 2 lg -> length a = Nat.pow 2 lg -> length b = Nat.pow 2 lg ->
  flen gf (Nat.pow 2 lg) -> flen hf (Nat.pow 2 lg) ->
  exists r, create_loop e fuel st (bs t) gf hf (map bs gk) (map bs hk) a b = Val r.
Proof.
  intros NZ. induction lg as [|lg IH]; intros fuel st t gf hf gk hk a b Lf Lg Lh La Lb Fg Fh; (destruct fuel as [|fuel]; [lia|]); cbn [create_loop]; rewrite map_length, Lg.
  { eexists. reflexivity. }
  assert (P : (0 < Nat.pow 2 lg)%nat) by (apply Nat.neq_0_lt_0, Nat.pow_nonzero; lia).
  destruct (Nat.leb_spec (Nat.pow 2 (S lg)) 1) as [K|_]; [cbn [Nat.pow] in K; lia|].
  change (Nat.pow 2 (S lg)) with (2 * Nat.pow 2 lg)%nat in *. set (h := Nat.pow 2 lg) in *.
  destruct (round_spec t gf hf gk hk a b h Lg Lh La Lb Fg Fh) as [l [r [ER _]]]. rewrite ER. cbn [bind].
  specialize (NZ (append_point e (append_point e st (text "L") (bs l)) (text "R") (bs r))) as NZ'.
  destruct (challenge_scalar e (append_point e (append_point e st (text "L") (bs l)) (text "R") (bs r)) (text "u")) as [st2 u] eqn:EC.
  destruct (invert_mod_prime u q (w_prime W) NZ') as [v Ev]. rewrite Ev. rewrite !halves_map.
  destruct (halves_len a h La) as [A1 A2]. destruct (halves_len b h Lb) as [B1 B2].
  destruct (halves_len gk h Lg) as [G1 G2]. destruct (halves_len hk h Lh) as [H1 H2].
  destruct (fold_points_spec v u gf _ _ h G1 G2 Fg) as [gk' [EG' [LG' _]]].
  destruct (fold_points_spec u v hf _ _ h H1 H2 Fh) as [hk' [EH' [LH' _]]].
  destruct (halves a) as [aL aR]. destruct (halves b) as [bL bR]. destruct (halves gk) as [gL gR]. destruct (halves hk) as [hL hR]. cbn [fst snd] in *.
  rewrite EG', EH'. cbn [bind].
  destruct (IH fuel st2 t None None gk' hk' (fold_scalars e u v aL aR) (fold_scalars e v u bL bR)) as [[st3 p] EP];
    try (unfold fold_scalars; rewrite map_length, combine_length; lia); try exact I; try assumption; try lia.
  rewrite EP. cbn [bind]. eexists. reflexivity.
Qed.
End Points.
