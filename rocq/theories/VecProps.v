(** C41: vector algebra. *)
From Coq Require Import ZArith Reals String Ascii Bool List Lra Psatz.
From Verif Require Import PyBase PyStr VecModel VecProofs.
Import ListNotations.
Open Scope R_scope.

(** The three axes. *)
Definition e1 : vec := mkvec 1 0 0.
Definition e2 : vec := mkvec 0 1 0.
Definition e3 : vec := mkvec 0 0 1.

(** Operands which are not vectors are refused.  A number may be given as text. *)
Theorem C41_operands : forall u o,
  ((forall w, o <> OVec w) <-> add u o = Err TypeError) /\ ((forall w, o <> OVec w) <-> sub u o = Err TypeError) /\
  ((forall w, o <> OVec w) <-> dot u o = Err TypeError) /\ ((forall w, o <> OVec w) <-> cross u o = Err TypeError) /\
  ((forall w, o <> OVec w) <-> distance u o = Err TypeError) /\ ((forall w, o <> OVec w) <-> eq u o = Err TypeError) /\
  (mul u o = Err TypeError <-> o = OOther \/ o = OText None \/ exists w, o = OVec w) /\
  (forall e, (add u o = Err e \/ sub u o = Err e \/ dot u o = Err e \/ cross u o = Err e \/ distance u o = Err e \/ eq u o = Err e \/ mul u o = Err e) -> e = TypeError) /\
  (forall k, o = OText (Some k) -> mul u o = mul u (ONum k)).
Proof.
  intros u o. destruct o as [w|x|[x|]|]; cbn;
    repeat (split; [first [split; [intro H; first [reflexivity|exfalso; exact (H _ eq_refl)]|intro H; first [discriminate|intros w' E; discriminate]]
                          |split; [intro H; first [discriminate|eauto 4]|intros [H|[H|[w' H]]]; try discriminate; reflexivity]
                          |intros e H; repeat destruct H as [H|H]; first [discriminate|congruence]]|]);
    intros k E; first [discriminate|injection E as ->; reflexivity].
Qed.
Print Assumptions C41_operands.
(** Addition and scaling make three-space. *)
Theorem C41_linear : forall a b c j k,
  (exists s, add a (OVec b) = Ok s /\ add b (OVec a) = Ok s /\ sub s (OVec b) = Ok a) /\
  (exists s t r, add a (OVec b) = Ok s /\ add s (OVec c) = Ok r /\ add b (OVec c) = Ok t /\ add a (OVec t) = Ok r) /\
  add a (OVec (mkvec 0 0 0)) = Ok a /\ sub a (OVec a) = Ok (mkvec 0 0 0) /\
  mul a (ONum 1) = Ok a /\ mul a (ONum 0) = Ok (mkvec 0 0 0) /\
  (exists s sk ak bk, add a (OVec b) = Ok s /\ mul s (ONum k) = Ok sk /\ mul a (ONum k) = Ok ak /\ mul b (ONum k) = Ok bk /\ add ak (OVec bk) = Ok sk) /\
  (exists aj ak s, mul a (ONum j) = Ok aj /\ mul a (ONum k) = Ok ak /\ add aj (OVec ak) = Ok s /\ mul a (ONum (j + k)) = Ok s) /\
  (exists aj, mul a (ONum j) = Ok aj /\ mul aj (ONum k) = mul a (ONum (j * k))) /\
  (exists x y z xy, mul e1 (ONum (vx a)) = Ok x /\ mul e2 (ONum (vy a)) = Ok y /\ mul e3 (ONum (vz a)) = Ok z /\ add x (OVec y) = Ok xy /\ add xy (OVec z) = Ok a).
Proof.
  intros a b c j k. unfold add, sub, mul, with_vec, e1, e2, e3. cbn [py_float].
  repeat split; repeat eexists; try reflexivity; f_equal; vring.
Qed.
Print Assumptions C41_linear.
(** The dot product is symmetric and linear, and picks the components. *)
Theorem C41_dot : forall a b c k, exists ab ac,
  dot a (OVec b) = Ok ab /\ dot b (OVec a) = Ok ab /\ dot a (OVec c) = Ok ac /\
  (exists s kb, add b (OVec c) = Ok s /\ dot a (OVec s) = Ok (ab + ac) /\ mul b (ONum k) = Ok kb /\ dot a (OVec kb) = Ok (k * ab)) /\
  dot a (OVec e1) = Ok (vx a) /\ dot a (OVec e2) = Ok (vy a) /\ dot a (OVec e3) = Ok (vz a) /\
  (exists n, dot a (OVec a) = Ok n /\ 0 <= n /\ (n = 0 <-> a = mkvec 0 0 0) /\ mag a * mag a = n).
Proof.
  intros a b c k. exists (vdot a b), (vdot a c). unfold add, dot, mul, with_vec, e1, e2, e3. cbn [py_float].
  split; [reflexivity|]. split; [f_equal; vring|]. split; [reflexivity|]. split; [do 2 eexists; repeat split; f_equal; vring|].
  split; [f_equal; vring|]. split; [f_equal; vring|]. split; [f_equal; vring|].
  eexists. split; [reflexivity|]. split; [apply dot_pos|]. split; [split; [apply dot_zero|intros ->; vring]|apply mag_sq].
Qed.
Print Assumptions C41_dot.
(** The cross product: perpendicular, alternating, linear and right-handed; its
    length is the area spanned. *)
Theorem C41_cross : forall a b c k, exists ab n,
  cross a (OVec b) = Ok ab /\ dot a (OVec b) = Ok n /\ dot ab (OVec a) = Ok 0 /\ dot ab (OVec b) = Ok 0 /\
  cross a (OVec a) = Ok (mkvec 0 0 0) /\ (exists ba, cross b (OVec a) = Ok ba /\ add ab (OVec ba) = Ok (mkvec 0 0 0)) /\
  mag ab * mag ab = mag a * mag a * (mag b * mag b) - n * n /\
  (exists ac s t kb kab, cross a (OVec c) = Ok ac /\ add b (OVec c) = Ok s /\ cross a (OVec s) = Ok t /\ add ab (OVec ac) = Ok t /\
     mul b (ONum k) = Ok kb /\ cross a (OVec kb) = Ok kab /\ mul ab (ONum k) = Ok kab) /\
  cross e1 (OVec e2) = Ok e3 /\ cross e2 (OVec e3) = Ok e1 /\ cross e3 (OVec e1) = Ok e2.
Proof.
  intros a b c k. exists (vcross a b), (vdot a b). unfold add, dot, mul, cross, with_vec, e1, e2, e3. cbn [py_float].
  split; [reflexivity|]. split; [reflexivity|]. split; [f_equal; vring|]. split; [f_equal; vring|]. split; [f_equal; vring|].
  split; [eexists; split; [reflexivity|f_equal; vring]|]. split; [rewrite !mag_sq; apply lagrange|].
  split; [do 5 eexists; repeat split; f_equal; vring|]. repeat split; f_equal; vring.
Qed.
Print Assumptions C41_cross.
(** Lengths. *)
Theorem C41_mag : forall a b k, 0 <= mag a /\ (mag a = 0 <-> a = mkvec 0 0 0) /\
  (exists n, dot a (OVec b) = Ok n /\ Rabs n <= mag a * mag b) /\ (exists s, add a (OVec b) = Ok s /\ mag s <= mag a + mag b) /\
  (exists s, mul a (ONum k) = Ok s /\ mag s = Rabs k * mag a).
Proof.
  intros a b k. split; [apply mag_nonneg|]. split; [apply mag_zero|]. split; [eexists; split; [reflexivity|apply cauchy]|].
  split; [eexists; split; [reflexivity|apply triangle]|]. eexists. split; [reflexivity|apply mag_scale].
Qed.
Print Assumptions C41_mag.
(** Normalising: the result has length one and the same direction; the zero
    vector has none. *)
Theorem C41_norm : forall a, (norm a = None <-> a = mkvec 0 0 0) /\ forall n, norm a = Some n -> mag n = 1 /\ mul n (ONum (mag a)) = Ok a.
Proof.
  intro a. unfold norm. cbv zeta. destruct (reqd (mag a) 0) eqn:E.
  - apply reqd_iff in E. split; [|discriminate]. split; [intros _; apply mag_zero; assumption|reflexivity].
  - assert (N : mag a <> 0) by (intro H; apply reqd_iff in H; congruence). split; [split; [discriminate|intro H; exfalso; apply N; apply mag_zero; exact H]|].
    intros n En. injection En as <-. assert (P : 0 < mag a) by (pose proof (mag_nonneg a); lra). split.
    + replace (mkvec (vx a / mag a) (vy a / mag a) (vz a / mag a)) with (vscale (/ mag a) a) by (apply vec_ext; reflexivity).
      rewrite mag_scale, Rabs_right by (left; apply Rinv_0_lt_compat; assumption). apply Rinv_l. assumption.
    + unfold mul. cbn [py_float]. f_equal. apply vec_ext; unfold vscale; cbn [vx vy vz]; field; assumption.
Qed.
Print Assumptions C41_norm.
Example C41_ex_norm : exists n, norm (mkvec 3 0 4) = Some n.
Proof.
  unfold norm. cbv zeta. destruct (reqd (mag (mkvec 3 0 4)) 0) eqn:E; [|eauto].
  apply reqd_iff, mag_zero in E. unfold v0 in E. injection E as E _. lra.
Qed.
(** The distance is a metric, and equality means equal components. *)
Theorem C41_distance : forall a b c, exists d d1 d2, distance a (OVec b) = Ok d /\ distance b (OVec a) = Ok d /\ 0 <= d /\ (d = 0 <-> a = b) /\
  (eq a (OVec b) = Ok true <-> a = b) /\ (eq a (OVec b) = Ok false <-> a <> b) /\
  (exists s, sub a (OVec b) = Ok s /\ d = mag s) /\ distance a (OVec c) = Ok d1 /\ distance c (OVec b) = Ok d2 /\ d <= d1 + d2.
Proof.
  intros a b c. exists (mag (vsub a b)), (mag (vsub a c)), (mag (vsub c b)). split; [reflexivity|]. split; [rewrite dist_mag; f_equal; apply mag_opp|]. split; [apply mag_nonneg|].
  assert (Z : mag (vsub a b) = 0 <-> a = b).
  { rewrite mag_zero. split; [|intros ->; unfold v0; vring]. destruct a, b. unfold vsub, v0. cbn. intro H. injection H as H1 H2 H3. f_equal; lra. }
  assert (Q : reqd (vx b) (vx a) && reqd (vy b) (vy a) && reqd (vz b) (vz a) = true <-> a = b).
  { rewrite !andb_true_iff, !reqd_iff. split; [intros [[H1 H2] H3]; apply vec_ext; auto|intros ->; auto]. }
  split; [exact Z|]. unfold eq, with_vec. split; [rewrite <- Q; split; [intro H; injection H as H; exact H|intros ->; reflexivity]|].
  split; [rewrite <- Q; destruct (reqd (vx b) (vx a) && reqd (vy b) (vy a) && reqd (vz b) (vz a)); split; congruence|].
  split; [eexists; split; reflexivity|]. split; [reflexivity|]. split; [reflexivity|]. apply dist_triangle.
Qed.
Print Assumptions C41_distance.
(** Tuples and vectors correspond. *)
Theorem C41_tuple : (forall a, from_tuple (get_tuple a) = Ok a) /\
  forall l, (exists a, from_tuple l = Ok a /\ get_tuple a = l) /\ List.length l = 3%nat \/ from_tuple l = Err ValueError /\ List.length l <> 3%nat.
Proof.
  split; [intros [x y z]; reflexivity|]. intros [|x [|y [|z [|w l]]]]; cbn; try (right; split; [reflexivity|discriminate]). left. split; [|reflexivity]. eexists. split; reflexivity.
Qed.
Print Assumptions C41_tuple.
