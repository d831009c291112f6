(* C85: great-circle distance, closest site, bounding boxes, degrees-minutes-seconds and the lowest cell of a basin. *)
From Coq Require Import Reals Ratan ZArith QArith Qround Qabs List Bool Arith Sorted Lra Lia.
From Verif Require Import Base Site_Model.
Import ListNotations.

(* ---------- specification ---------- *)
Section Distance.
Local Open Scope R_scope.
(* the point of the unit sphere; the great-circle distance is the radius times the angle between two such vectors *)
Definition point (lon lat : R) : R * R * R := let p := PI / 180 in (cos (lat * p) * cos (lon * p), cos (lat * p) * sin (lon * p), sin (lat * p)).
Definition dot (p q : R * R * R) : R := let '(a, b, c) := p in let '(x, y, z) := q in a * x + b * y + c * z.
Definition great_circle (d : R) (p q : R * R * R) : Prop := 0 <= d <= 6371 * PI /\ cos (d / 6371) = dot p q.

Lemma sc2 x : sin x * sin x + cos x * cos x = 1.
Proof. pose proof (sin2_cos2 x) as H. unfold Rsqr in H. exact H. Qed.
Lemma unit_point lon lat : dot (point lon lat) (point lon lat) = 1.
Proof. unfold dot, point. set (a := lat * _). set (b := lon * _). pose proof (sc2 a). pose proof (sc2 b). transitivity (cos a * cos a * (sin b * sin b + cos b * cos b) + sin a * sin a); [ring | rewrite H0; lra]. Qed.
Lemma hav_dot lon1 lat1 lon2 lat2 : haversine lon1 lat1 lon2 lat2 = (1 - dot (point lon1 lat1) (point lon2 lat2)) / 2.
Proof.
  unfold haversine, dot, point. set (p := PI / 180). replace ((lat2 - lat1) * p) with (lat2 * p - lat1 * p) by ring. replace ((lon2 - lon1) * p) with (lon2 * p - lon1 * p) by ring. rewrite !cos_minus. field.
Qed.
Lemma gram a b c x y z : a * a + b * b + c * c = 1 -> x * x + y * y + z * z = 1 -> (a * x + b * y + c * z) * (a * x + b * y + c * z) <= 1.
Proof.
  intros A B. pose proof (Rle_0_sqr (a * y - b * x)) as H1. pose proof (Rle_0_sqr (a * z - c * x)) as H2. pose proof (Rle_0_sqr (b * z - c * y)) as H3. unfold Rsqr in *.
  assert (E : (a * a + b * b + c * c) * (x * x + y * y + z * z) = 1) by (rewrite A, B; ring). lra.
Qed.
Lemma dot_range u v u' v' : -1 <= dot (point u v) (point u' v') <= 1.
Proof.
  pose proof (unit_point u v) as A. pose proof (unit_point u' v') as B. destruct (point u v) as [[a b] c]. destruct (point u' v') as [[x y] z]. unfold dot in *. pose proof (gram a b c x y z A B). set (d := a * x + b * y + c * z) in *. split; nra.
Qed.
Lemma hav_range u v u' v' : 0 <= haversine u v u' v' <= 1.
Proof. rewrite hav_dot. pose proof (dot_range u v u' v'). lra. Qed.
(* ---------- the distance is the length of the great circle ---------- *)
Theorem C85_distance lon1 lat1 lon2 lat2 : great_circle (distance lon1 lat1 lon2 lat2) (point lon1 lat1) (point lon2 lat2).
Proof.
  pose proof (hav_range lon1 lat1 lon2 lat2) as H. pose proof (sqrt_pos (haversine lon1 lat1 lon2 lat2)) as S. assert (S1 : sqrt (haversine lon1 lat1 lon2 lat2) <= 1) by (rewrite <- sqrt_1; apply sqrt_le_1; lra). pose proof (sqrt_sqrt _ (proj1 H)) as Q. unfold distance. set (s := sqrt _) in *.
  assert (A : 0 <= asin s <= PI / 2). { pose proof (asin_bound s) as AB. split; [|lra]. destruct (Rle_or_lt 0 (asin s)) as [L|L]; [exact L|]. pose proof PI_RGT_0. pose proof (sin_lt_0_var (asin s) ltac:(lra) L) as X. rewrite sin_asin in X by lra. lra. }
  split; [lra|]. replace (12742 * asin s / 6371) with (2 * asin s) by field. rewrite cos_2a_sin, sin_asin by lra. rewrite hav_dot in Q. lra.
Qed.
Print Assumptions C85_distance.
Lemma gc_unique d d' p q : great_circle d p q -> great_circle d' p q -> d = d'.
Proof.
  intros [A B] [A' B']. assert (C : d / 6371 = d' / 6371); [|lra]. rewrite <- (acos_cos (d / 6371)), <- (acos_cos (d' / 6371)) by lra. congruence.
Qed.
Theorem C85_symmetric lon1 lat1 lon2 lat2 : distance lon1 lat1 lon2 lat2 = distance lon2 lat2 lon1 lat1.
Proof.
  apply (gc_unique _ _ (point lon1 lat1) (point lon2 lat2)); [apply C85_distance|]. destruct (C85_distance lon2 lat2 lon1 lat1) as [A B]. split; [exact A|]. rewrite B. unfold dot. destruct (point lon1 lat1) as [[a b] c]. destruct (point lon2 lat2) as [[x y] z]. ring.
Qed.
Print Assumptions C85_symmetric.
Lemma sq3 p q r : p * p + q * q + r * r = 0 -> p = 0 /\ q = 0 /\ r = 0.
Proof.
  intro H. pose proof (Rle_0_sqr p) as A. pose proof (Rle_0_sqr q) as B. pose proof (Rle_0_sqr r) as C. unfold Rsqr in *. repeat split; apply Rsqr_0_uniq; unfold Rsqr; lra.
Qed.
(* 0 for the same point of the earth only; longitudes may differ by whole turns *)
Theorem C85_zero lon1 lat1 lon2 lat2 : distance lon1 lat1 lon2 lat2 = 0 <-> point lon1 lat1 = point lon2 lat2.
Proof.
  destruct (C85_distance lon1 lat1 lon2 lat2) as [A B]. split; intro H.
  - rewrite H in B. replace (0 / 6371) with 0 in B by field. rewrite cos_0 in B. pose proof (unit_point lon1 lat1) as U. pose proof (unit_point lon2 lat2) as V. destruct (point lon1 lat1) as [[a b] c]. destruct (point lon2 lat2) as [[x y] z]. unfold dot in *.
    assert (Z : (a - x) * (a - x) + (b - y) * (b - y) + (c - z) * (c - z) = 0) by lra. assert (ZZ : a - x = 0 /\ b - y = 0 /\ c - z = 0) by (apply sq3, Z). destruct ZZ as (Z1 & Z2 & Z3). replace a with x by lra. replace b with y by lra. replace c with z by lra. reflexivity.
  - apply (gc_unique _ _ (point lon1 lat1) (point lon2 lat2)); [split; assumption|]. split; [pose proof PI_RGT_0; lra|]. rewrite <- H, unit_point. replace (0 / 6371) with 0 by field. apply cos_0.
Qed.
Print Assumptions C85_zero.
Theorem C85_whole_turns lon1 lat1 lon2 lat2 : distance (lon1 + 360) lat1 lon2 lat2 = distance lon1 lat1 lon2 lat2.
Proof.
  unfold distance, haversine. replace ((lon2 - (lon1 + 360)) * (PI / 180)) with ((lon2 - lon1) * (PI / 180) - 2 * PI) by field. rewrite cos_minus, sin_2PI, cos_2PI. repeat f_equal. ring.
Qed.
Print Assumptions C85_whole_turns.
(* the triangle inequality *)
Theorem C85_triangle lon1 lat1 lon2 lat2 lon3 lat3 : distance lon1 lat1 lon3 lat3 <= distance lon1 lat1 lon2 lat2 + distance lon2 lat2 lon3 lat3.
Proof.
  destruct (C85_distance lon1 lat1 lon3 lat3) as [A3 B3]. destruct (C85_distance lon1 lat1 lon2 lat2) as [A1 B1]. destruct (C85_distance lon2 lat2 lon3 lat3) as [A2 B2]. set (d3 := distance lon1 lat1 lon3 lat3) in *. set (d1 := distance lon1 lat1 lon2 lat2) in *. set (d2 := distance lon2 lat2 lon3 lat3) in *.
  destruct (Rle_or_lt d3 (d1 + d2)) as [L|L]; [exact L|]. exfalso. set (x := d1 / 6371) in *. set (y := d2 / 6371) in *. set (w := d3 / 6371) in *. assert (X : 0 <= x <= PI) by (unfold x; lra). assert (Y : 0 <= y <= PI) by (unfold y; lra). assert (Wd : 0 <= w <= PI) by (unfold w; lra). assert (LT : x + y < w) by (unfold x, y, w; lra).
  pose proof (cos_decreasing_1 (x + y) w ltac:(lra) ltac:(lra) ltac:(lra) ltac:(lra) LT) as C. rewrite cos_plus in C.
  assert (SX : 0 <= sin x) by (apply sin_ge_0; lra). assert (SY : 0 <= sin y) by (apply sin_ge_0; lra). pose proof (sc2 x) as TX. pose proof (sc2 y) as TY. rewrite B1, B2, B3 in *.
  pose proof (unit_point lon1 lat1) as U1. pose proof (unit_point lon2 lat2) as U2. pose proof (unit_point lon3 lat3) as U3. destruct (point lon1 lat1) as [[a1 a2] a3]. destruct (point lon2 lat2) as [[b1 b2] b3]. destruct (point lon3 lat3) as [[c1 c2] c3]. unfold dot in *.
  set (ab := a1 * b1 + a2 * b2 + a3 * b3) in *. set (bc := b1 * c1 + b2 * c2 + b3 * c3) in *. set (ac := a1 * c1 + a2 * c2 + a3 * c3) in *.
  assert (G : (ab * bc - ac) * (ab * bc - ac) <= (1 - ab * ab) * (1 - bc * bc)).
  { pose proof (Rle_0_sqr (a1 * (b2 * c3 - b3 * c2) - a2 * (b1 * c3 - b3 * c1) + a3 * (b1 * c2 - b2 * c1))) as D. unfold Rsqr in D.
    assert (E : (a1 * (b2 * c3 - b3 * c2) - a2 * (b1 * c3 - b3 * c1) + a3 * (b1 * c2 - b2 * c1)) * (a1 * (b2 * c3 - b3 * c2) - a2 * (b1 * c3 - b3 * c1) + a3 * (b1 * c2 - b2 * c1)) =
      (a1 * a1 + a2 * a2 + a3 * a3) * (b1 * b1 + b2 * b2 + b3 * b3) * (c1 * c1 + c2 * c2 + c3 * c3) + 2 * ab * bc * ac - (a1 * a1 + a2 * a2 + a3 * a3) * bc * bc - (b1 * b1 + b2 * b2 + b3 * b3) * ac * ac - (c1 * c1 + c2 * c2 + c3 * c3) * ab * ab) by (unfold ab, bc, ac; ring).
    rewrite U1, U2, U3 in E. lra. }
  assert (P : sin x * sin y * (sin x * sin y) = (1 - ab * ab) * (1 - bc * bc)) by (replace (1 - ab * ab) with (sin x * sin x) by lra; replace (1 - bc * bc) with (sin y * sin y) by lra; ring).
  assert (SP : 0 <= sin x * sin y) by (apply Rmult_le_pos; assumption). assert (K : sin x * sin y < ab * bc - ac) by lra. nra.
Qed.
Print Assumptions C85_triangle.

(* ---------- closest site ---------- *)
Lemma argmin_in d : forall l best, In (argmin d best l) (best :: l) /\ forall t, In t (best :: l) -> d (argmin d best l) <= d t.
Proof.
  induction l as [|s l IH]; intro best; cbn [argmin].
  - split; [left; reflexivity|]. intros t [->|[]]. lra.
  - destruct (IH (if Rlt_dec (d s) (d best) then s else best)) as [A B]. split.
    + destruct A as [A|A]; [|right; right; exact A]. rewrite <- A. destruct (Rlt_dec (d s) (d best)); [right; left; reflexivity | left; reflexivity].
    + intros t [<-|[<-|I]]; [| |apply B; right; exact I]; pose proof (B _ (or_introl eq_refl)) as C; destruct (Rlt_dec (d s) (d best)); lra.
Qed.
(* sites before the one returned are strictly farther *)
Lemma argmin_first d : forall l best pre, (forall t, In t pre -> d best < d t) -> exists before after, pre ++ best :: l = before ++ argmin d best l :: after /\ forall t, In t before -> d (argmin d best l) < d t.
Proof.
  induction l as [|s l IH]; intros best pre H; cbn [argmin].
  - exists pre, []. auto.
  - destruct (Rlt_dec (d s) (d best)) as [L|L].
    + destruct (IH s (pre ++ [best])) as (b & a & E & F); [intros t T; apply in_app_or in T; destruct T as [T|[<-|[]]]; [pose proof (H t T); lra | exact L]|]. exists b, a. rewrite <- app_assoc in E. split; [exact E | exact F].
    + destruct (IH best pre H) as (b & a & E & F). pose proof (argmin_in d l best) as [_ M].
      assert (Q : exists b' a', pre ++ best :: s :: l = b' ++ argmin d best l :: a' /\ forall t, In t b' -> d (argmin d best l) < d t).
      { (* either best itself is returned, or an element of l with s strictly farther *)
        destruct (argmin_in d l best) as [[I|I] _].
        - exists pre, (s :: l). rewrite <- I. split; [reflexivity | exact H].
        - clear IH E F b a. destruct (Req_dec (d (argmin d best l)) (d best)) as [Eq|Ne].
          + exists pre, (s :: l). assert (X : argmin d best l = best); [|rewrite X; auto].
            clear - Eq. revert best Eq. induction l as [|y l IH]; intros best Eq; [reflexivity|]. cbn [argmin] in *. destruct (Rlt_dec (d y) (d best)) as [L|L]; [|apply IH, Eq]. exfalso. pose proof (argmin_in d l y) as [_ M]. pose proof (M y (or_introl eq_refl)). lra.
          + assert (LT : d (argmin d best l) < d best) by (pose proof (M best (or_introl eq_refl)); lra). clear Ne I.
            assert (Q : forall l best, d (argmin d best l) < d best -> exists b a, l = b ++ argmin d best l :: a /\ forall t, In t b -> d (argmin d best l) < d t).
            { clear. induction l as [|y l IH]; intros best LT; cbn [argmin] in *; [lra|]. destruct (Rlt_dec (d y) (d best)) as [L|L].
              - destruct (Req_dec (d (argmin d y l)) (d y)) as [Eq|Ne].
                + exists [], l. assert (X : argmin d y l = y); [|rewrite X; split; [reflexivity | intros t []]]. clear - Eq. revert y Eq. induction l as [|z l IH]; intros y Eq; [reflexivity|]. cbn [argmin] in *. destruct (Rlt_dec (d z) (d y)) as [L|L]; [|apply IH, Eq]. exfalso. pose proof (argmin_in d l z) as [_ M]. pose proof (M z (or_introl eq_refl)). lra.
                + pose proof (argmin_in d l y) as [_ M]. pose proof (M y (or_introl eq_refl)) as M'. destruct (IH y ltac:(lra)) as (b & a & E & F). exists (y :: b), a. split; [cbn; f_equal; exact E|]. intros t [<-|T]; [lra | apply F, T].
              - destruct (IH best LT) as (b & a & E & F). exists (y :: b), a. split; [cbn; f_equal; exact E|]. intros t [<-|T]; [lra | apply F, T]. }
            destruct (Q l best LT) as (b & a & E & F). exists (pre ++ best :: s :: b), a. split; [rewrite <- app_assoc; cbn; do 3 f_equal; exact E|]. intros t T. apply in_app_or in T. destruct T as [T|[<-|[<-|T]]]; [pose proof (H t T); lra | exact LT | lra | apply F, T]. }
      exact Q.
Qed.
Theorem C85_closest sites lon lat : -999 < lon -> -90 <= lat <= 90 -> sites <> [] -> exists id x y before after, get_closest_site sites lon lat = Closest id x y (distance x y lon lat) /\
  sites = before ++ (id, x, y) :: after /\ (forall id' x' y', In (id', x', y') sites -> distance x y lon lat <= distance x' y' lon lat) /\ (forall id' x' y', In (id', x', y') before -> distance x y lon lat < distance x' y' lon lat).
Proof.
  intros A B N. unfold get_closest_site. destruct (Rle_dec lon (-999)); [lra|]. destruct (Rlt_dec lat (-90)); [lra|]. destruct (Rlt_dec 90 lat); [lra|]. destruct sites as [|s l]; [contradiction|]. set (d := fun '(_, x, y) => distance x y lon lat).
  destruct (argmin_in d l s) as [_ M]. destruct (argmin_first d l s [] ltac:(intros t [])) as (b & a & E & F). destruct (argmin d s l) as [[id x] y]. exists id, x, y, b, a. split; [reflexivity|]. split; [exact E|]. split; intros id' x' y' I; [exact (M _ I) | exact (F _ I)].
Qed.
Print Assumptions C85_closest.
Theorem C85_unknown sites lon lat : get_closest_site sites lon lat = Unknown <-> lon <= -999 \/ lat < -90 \/ 90 < lat.
Proof.
  unfold get_closest_site. destruct (Rle_dec lon (-999)); [tauto|]. destruct (Rlt_dec lat (-90)); [tauto|]. destruct (Rlt_dec 90 lat); [tauto|]. split; [|intros [H|[H|H]]; lra]. destruct sites as [|s l]; [discriminate|]. destruct (argmin _ _ _) as [[id x] y]. discriminate.
Qed.
Print Assumptions C85_unknown.
End Distance.

From Coq Require Import Lqa.
Local Open Scope Q_scope.
(* ---------- np.around ---------- *)
Definition ten (d : nat) : Q := inject_Z (10 ^ Z.of_nat d).
Lemma ten_pos d : 0 < ten d.
Proof. unfold ten. replace 0 with (inject_Z 0) by reflexivity. rewrite <- Zlt_Qlt. apply Z.pow_pos_nonneg; lia. Qed.
Lemma around_z d x : exists z : Z, around d x == inject_Z z / ten d /\ x * ten d - (1 # 2) <= inject_Z z <= x * ten d + (1 # 2).
Proof.
  unfold around. fold (ten d). set (y := x * ten d). pose proof (Qfloor_le y) as A. pose proof (Qlt_floor y) as B. rewrite inject_Z_plus in B. change (inject_Z 1) with 1 in B. set (f := Qfloor y) in *.
  destruct (Qltb (y - inject_Z f) (1 # 2)) eqn:C1; [apply Qltb_lt in C1; exists f; split; [reflexivity | lra]|]. assert (G1 : ~ y - inject_Z f < 1 # 2) by (rewrite <- Qltb_lt, C1; discriminate).
  destruct (Qltb (1 # 2) (y - inject_Z f)) eqn:C2; [apply Qltb_lt in C2; exists (f + 1)%Z; split; [reflexivity | rewrite inject_Z_plus; change (inject_Z 1) with 1; lra]|]. assert (G2 : ~ 1 # 2 < y - inject_Z f) by (rewrite <- Qltb_lt, C2; discriminate).
  destruct (Z.even f); [exists f; split; [reflexivity | lra] | exists (f + 1)%Z; split; [reflexivity | rewrite inject_Z_plus; change (inject_Z 1) with 1; lra]].
Qed.
(* the nearest number with so many decimals *)
Theorem C85_around d x : (exists z, around d x * ten d == inject_Z z) /\ x - (1 # 2) / ten d <= around d x <= x + (1 # 2) / ten d.
Proof.
  pose proof (ten_pos d) as T. destruct (around_z d x) as (z & E & A & B). split; [exists z; rewrite E; field; lra|]. rewrite E. split.
  - apply Qle_shift_div_l; [exact T|]. apply Qle_trans with (x * ten d - (1 # 2)); [|exact A]. apply Qle_lteq. right. field. lra.
  - apply Qle_shift_div_r; [exact T|]. apply Qle_trans with (x * ten d + (1 # 2)); [exact B|]. apply Qle_lteq. right. field. lra.
Qed.
Print Assumptions C85_around.

(* a number half-way between two goes to the one whose last digit is even; a number with so many decimals stays *)
Theorem C85_around_tie d x n : x * ten d == inject_Z n + (1 # 2) -> exists z, Z.Even z /\ (z = n \/ z = (n + 1)%Z) /\ around d x == inject_Z z / ten d.
Proof.
  intro E. unfold around. fold (ten d). set (y := x * ten d) in *. assert (F : Qfloor y = n).
  { pose proof (Qfloor_le y) as A. pose proof (Qlt_floor y) as B. rewrite inject_Z_plus in B. change (inject_Z 1) with 1 in B. apply Z.le_antisymm; apply Z.lt_succ_r; rewrite Zlt_Qlt, <- Z.add_1_r, inject_Z_plus; change (inject_Z 1) with 1; lra. }
  rewrite F. destruct (Qltb (y - inject_Z n) (1 # 2)) eqn:C1; [apply Qltb_lt in C1; lra|]. destruct (Qltb (1 # 2) (y - inject_Z n)) eqn:C2; [apply Qltb_lt in C2; lra|].
  destruct (Z.even n) eqn:V.
  - exists n. split; [apply Z.even_spec, V|]. split; [left; reflexivity | reflexivity].
  - exists (n + 1)%Z. split; [apply Z.even_spec; rewrite Z.add_1_r, Z.even_succ, <- Z.negb_even, V; reflexivity|]. split; [right; reflexivity | reflexivity].
Qed.
Print Assumptions C85_around_tie.

(* ---------- boxes ---------- *)
Lemma lmin_le : forall l x, lmin x l <= x /\ (forall y, In y l -> lmin x l <= y) /\ In (lmin x l) (x :: l).
Proof.
  unfold lmin. induction l as [|y l IH]; intro x; cbn [fold_left].
  - split; [lra|]. split; [intros y [] | left; reflexivity].
  - destruct (IH (if Qltb y x then y else x)) as (A & B & C). destruct (Qltb y x) eqn:E.
    + apply Qltb_lt in E. split; [lra|]. split; [intros z [<-|I]; [exact A | apply B, I]|]. destruct C as [C|C]; [right; left; exact C | right; right; exact C].
    + assert (x <= y) by (apply Qnot_lt_le; rewrite <- Qltb_lt, E; discriminate). split; [exact A|]. split; [intros z [<-|I]; [lra | apply B, I]|]. destruct C as [C|C]; [left; exact C | right; right; exact C].
Qed.
Lemma lmax_ge : forall l x, x <= lmax x l /\ (forall y, In y l -> y <= lmax x l) /\ In (lmax x l) (x :: l).
Proof.
  unfold lmax. induction l as [|y l IH]; intro x; cbn [fold_left].
  - split; [lra|]. split; [intros y [] | left; reflexivity].
  - destruct (IH (if Qltb x y then y else x)) as (A & B & C). destruct (Qltb x y) eqn:E.
    + apply Qltb_lt in E. split; [lra|]. split; [intros z [<-|I]; [exact A | apply B, I]|]. destruct C as [C|C]; [right; left; exact C | right; right; exact C].
    + assert (y <= x) by (apply Qnot_lt_le; rewrite <- Qltb_lt, E; discriminate). split; [exact A|]. split; [intros z [<-|I]; [lra | apply B, I]|]. destruct C as [C|C]; [left; exact C | right; right; exact C].
Qed.
(* every vertex is inside the box, rounding included, when the buffer is larger than half a unit of the last decimal *)
Theorem C85_box_contains x xs y ys buffer d px py : (1 # 2) / ten d < buffer -> In px (x :: xs) -> In py (y :: ys) ->
  let b := bounding_box x xs y ys buffer d in minlon b < px < maxlon b /\ minlat b < py < maxlat b.
Proof.
  intros B X Y b. unfold b, bounding_box. cbn [minlon maxlon minlat maxlat].
  pose proof (proj2 (C85_around d (lmin x xs - buffer))) as A1. pose proof (proj2 (C85_around d (lmax x xs + buffer))) as A2. pose proof (proj2 (C85_around d (lmin y ys - buffer))) as A3. pose proof (proj2 (C85_around d (lmax y ys + buffer))) as A4.
  assert (MX : lmin x xs <= px <= lmax x xs). { pose proof (lmin_le xs x) as (P & Q & _). pose proof (lmax_ge xs x) as (P' & Q' & _). destruct X as [<-|X]; [split; assumption | split; [apply Q, X | apply Q', X]]. }
  assert (MY : lmin y ys <= py <= lmax y ys). { pose proof (lmin_le ys y) as (P & Q & _). pose proof (lmax_ge ys y) as (P' & Q' & _). destruct Y as [<-|Y]; [split; assumption | split; [apply Q, Y | apply Q', Y]]. }
  set (h := (1 # 2) / ten d) in *. repeat split; lra.
Qed.
Print Assumptions C85_box_contains.
(* the box is no larger than that: its sides are within the buffer and half a unit of a vertex *)
Theorem C85_box_tight x xs y ys buffer d : let b := bounding_box x xs y ys buffer d in
  (exists p, In p (x :: xs) /\ p - buffer - (1 # 2) / ten d <= minlon b <= p - buffer + (1 # 2) / ten d) /\ (exists p, In p (x :: xs) /\ p + buffer - (1 # 2) / ten d <= maxlon b <= p + buffer + (1 # 2) / ten d) /\
  (exists p, In p (y :: ys) /\ p - buffer - (1 # 2) / ten d <= minlat b <= p - buffer + (1 # 2) / ten d) /\ (exists p, In p (y :: ys) /\ p + buffer - (1 # 2) / ten d <= maxlat b <= p + buffer + (1 # 2) / ten d).
Proof.
  intro b. unfold b, bounding_box. cbn [minlon maxlon minlat maxlat].
  split; [|split; [|split]].
  - exists (lmin x xs). split; [exact (proj2 (proj2 (lmin_le xs x))) | apply C85_around].
  - exists (lmax x xs). split; [exact (proj2 (proj2 (lmax_ge xs x))) | apply C85_around].
  - exists (lmin y ys). split; [exact (proj2 (proj2 (lmin_le ys y))) | apply C85_around].
  - exists (lmax y ys). split; [exact (proj2 (proj2 (lmax_ge ys y))) | apply C85_around].
Qed.
Print Assumptions C85_box_tight.
Definition in_box (b : box) (lon lat : Q) : Prop := minlon b <= lon <= maxlon b /\ minlat b <= lat <= maxlat b.
Theorem C85_check b lon lat : check_bounding_box b lon lat = true <-> in_box b lon lat.
Proof.
  unfold check_bounding_box, in_box. destruct (Qltb lon (minlon b)) eqn:A, (Qltb (maxlon b) lon) eqn:B, (Qltb lat (minlat b)) eqn:C, (Qltb (maxlat b) lat) eqn:D; cbn; rewrite <- ?not_true_iff_false, ?Qltb_lt in *; split; intro H; try discriminate; try (destruct H; lra); try reflexivity; repeat split; apply Qnot_lt_le; assumption.
Qed.
Print Assumptions C85_check.
Theorem C85_rectangle b lon lat : point_in_rectangle lon lat (minlon b) (maxlat b) (maxlon b) (minlat b) = check_bounding_box b lon lat.
Proof.
  apply eq_true_iff_eq. rewrite C85_check. unfold point_in_rectangle, in_box. rewrite !andb_true_iff, !Qle_bool_iff. tauto.
Qed.
Print Assumptions C85_rectangle.
Theorem C85_center b : (exists lon lat, in_box b lon lat) -> check_bounding_box b (fst (box_center b)) (snd (box_center b)) = true /\ fst (box_center b) - minlon b == maxlon b - fst (box_center b) /\ snd (box_center b) - minlat b == maxlat b - snd (box_center b).
Proof.
  intros (u & v & A & B). rewrite C85_check. unfold in_box, box_center. cbn [fst snd]. assert (E : forall p q : Q, (p + q) / 2 == (1 # 2) * p + (1 # 2) * q) by (intros; field). rewrite !E. repeat split; lra.
Qed.
Print Assumptions C85_center.
Theorem C85_basin_in_dem poly b : basin_in_dem poly b = true <-> exists x y, In (x, y) poly /\ minlon b <= x < maxlon b /\ minlat b <= y < maxlat b.
Proof.
  unfold basin_in_dem. rewrite Nat.ltb_lt. set (f := fun '(x, y) => _). split.
  - intro L. destruct (filter f poly) as [|[x y] l] eqn:E; [cbn in L; lia|]. assert (I : In (x, y) (filter f poly)) by (rewrite E; left; reflexivity). apply filter_In in I. destruct I as [I F]. exists x, y. split; [exact I|]. unfold f in F. rewrite !andb_true_iff, !Qle_bool_iff, !Qltb_lt in F. tauto.
  - intros (x & y & I & A & B). assert (J : In (x, y) (filter f poly)) by (apply filter_In; split; [exact I|]; unfold f; rewrite !andb_true_iff, !Qle_bool_iff, !Qltb_lt; tauto). destruct (filter f poly); [destruct J | cbn; lia].
Qed.
Print Assumptions C85_basin_in_dem.

(* ---------- degrees, minutes, seconds ---------- *)
Definition dms_value (minus : bool) (D M S : Q) : Q := if minus then - (D + M / 60 + S / 3600) else D + M / 60 + S / 3600.
Theorem C85_dms_partial minus D M S : 0 <= D -> (minus = true -> ~ D == 0) -> convert_dms minus D M S == dms_value minus D M S.
Proof.
  intros P H. unfold convert_dms, dms_value. destruct minus.
  - specialize (H eq_refl). replace (Qltb (- D) 0) with true by (symmetry; apply Qltb_lt; lra). ring.
  - replace (Qltb D 0) with false by (symmetry; apply not_true_iff_false; rewrite Qltb_lt; lra). ring.
Qed.
Print Assumptions C85_dms_partial.
(* "-0 30 0" (half a degree south or west) becomes half a degree north or east *)
Theorem C85_dms_refuted : exists M S, convert_dms true 0 M S == - dms_value true 0 M S /\ ~ convert_dms true 0 M S == dms_value true 0 M S.
Proof. exists 30, 0. split; [reflexivity|]. intro H. vm_compute in H. discriminate. Qed.
Print Assumptions C85_dms_refuted.

(* ---------- lowest cell ---------- *)
Lemma zmin_spec : forall l z, (zmin_of z l <= z)%Z /\ (forall y, In y l -> (zmin_of z l <= y)%Z) /\ In (zmin_of z l) (z :: l).
Proof.
  induction l as [|y l IH]; intro z; cbn [zmin_of].
  - split; [lia|]. split; [intros y [] | left; reflexivity].
  - destruct (IH (Z.min z y)) as (A & B & C). split; [lia|]. split; [intros w [<-|I]; [lia | apply B, I]|]. destruct C as [C|C]; [|right; right; exact C]. rewrite <- C. destruct (Z.min_spec z y) as [[_ ->]|[_ ->]]; [left; reflexivity | right; left; reflexivity].
Qed.
Lemma where_spec z : forall l k i, In i (where_from k z l) <-> (k <= i)%nat /\ nth_error l (i - k) = Some z.
Proof.
  induction l as [|y l IH]; intros k i; cbn [where_from].
  - split; [intros [] | intros [_ E]; destruct (i - k)%nat; discriminate].
  - assert (R : In i (where_from (S k) z l) <-> (k < i)%nat /\ nth_error (y :: l) (i - k) = Some z).
    { rewrite IH. split; intros [L E]; (split; [lia|]); replace (i - k)%nat with (S (i - S k)) in * by lia; exact E. }
    destruct (Z.eqb_spec y z) as [->|N].
    + split; [intros [<-|I]; [split; [lia | rewrite Nat.sub_diag; reflexivity] | apply R in I; split; [lia | tauto]]|]. intros [L E]. destruct (Nat.eq_dec k i) as [->|D]; [left; reflexivity|]. right. apply R. split; [lia | exact E].
    + rewrite R. split; intros [L E]; [split; [lia | exact E]|]. split; [|exact E]. destruct (Nat.eq_dec k i) as [->|D]; [|lia]. rewrite Nat.sub_diag in E. cbn in E. congruence.
Qed.
Lemma where_sorted z : forall l k, StronglySorted lt (where_from k z l).
Proof.
  induction l as [|y l IH]; intro k; cbn [where_from]; [constructor|]. destruct (Z.eqb y z); [|apply IH]. constructor; [apply IH|]. apply Forall_forall. intros i I. apply where_spec in I. lia.
Qed.
(* nodata cells count as 32767; otherwise the cell is the first of the lowest ones, with its own coordinates, and the flag says whether it is the only one *)
Theorem C85_zmin z zs lons lats nodata : forall zmin arg lon lat one, get_zmin_lon_and_lat z zs lons lats nodata = Some (zmin, arg, lon, lat, one) ->
  let zv := map (fun v => if Z.eqb v nodata then 32767%Z else v) (z :: zs) in
  nth_error zv arg = Some zmin /\ (forall i v, nth_error zv i = Some v -> (zmin <= v)%Z) /\ (forall i v, nth_error zv i = Some v -> (i < arg)%nat -> (zmin < v)%Z) /\
  (exists x y, nth_error lons arg = Some x /\ nth_error lats arg = Some y /\ lon = around 4 x /\ lat = around 4 y) /\
  (one = true <-> forall i, nth_error zv i = Some zmin -> i = arg).
Proof.
  intros zmin arg lon lat one. unfold get_zmin_lon_and_lat. cbv zeta. change (map (fun v => if Z.eqb v nodata then 32767%Z else v) (z :: zs)) with (map (mask nodata) (z :: zs)). cbn [map].
  set (m := zmin_of (mask nodata z) (map (mask nodata) zs)). pose proof (zmin_spec (map (mask nodata) zs) (mask nodata z)) as (A & B & C). fold m in A, B, C. set (zv := mask nodata z :: map (mask nodata) zs) in *.
  pose proof (where_spec m zv 0) as W. pose proof (where_sorted m zv 0) as SS. set (args := where_from 0 m zv) in *. assert (W' : forall i, In i args <-> nth_error zv i = Some m) by (intro i; rewrite W, Nat.sub_0_r; split; [tauto | intro; split; [lia | tauto]]). clear W.
  apply In_nth_error in C. destruct C as (k & C). assert (K : In k args) by (apply W', C).
  destruct args as [|a r]; [destruct K|]. cbn [hd]. destruct (nth_error lons a) as [x|] eqn:X; [|discriminate]. destruct (nth_error lats a) as [y|] eqn:Y; [|discriminate]. intro H. injection H as <- <- <- <- <-.
  assert (LOW : forall i v, nth_error zv i = Some v -> (m <= v)%Z). { intros i v N. apply nth_error_In in N. unfold zv in N. destruct N as [<-|N]; [exact A | apply B, N]. }
  apply StronglySorted_inv in SS. destruct SS as [_ F]. rewrite Forall_forall in F.
  split; [apply W'; left; reflexivity|]. split; [exact LOW|]. split.
  { intros i v N L. pose proof (LOW i v N). destruct (Z.eq_dec m v) as [->|D]; [|lia]. apply W' in N. destruct N as [->|N]; [lia|]. specialize (F i N). lia. }
  split; [exists x, y; repeat split; assumption|]. rewrite Nat.eqb_eq. split.
  - intros L i N. apply W' in N. destruct N as [->|N]; [reflexivity|]. destruct r; [destruct N | cbn in L; lia].
  - intro U. destruct r as [|b r]; [reflexivity|]. exfalso. assert (b = a) by (apply U, W'; right; left; reflexivity). specialize (F b (or_introl eq_refl)). lia.
Qed.
Print Assumptions C85_zmin.
(* a result exists whenever each cell has a longitude and a latitude *)
Theorem C85_zmin_exists z zs lons lats nodata : (length (z :: zs) <= length lons)%nat -> (length (z :: zs) <= length lats)%nat -> exists r, get_zmin_lon_and_lat z zs lons lats nodata = Some r.
Proof.
  intros L1 L2. unfold get_zmin_lon_and_lat. cbv zeta. cbn [map]. set (m := zmin_of _ _). set (zv := mask nodata z :: map (mask nodata) zs).
  pose proof (zmin_spec (map (mask nodata) zs) (mask nodata z)) as (_ & _ & C). fold m zv in C. apply In_nth_error in C. destruct C as (k & C). assert (K : In k (where_from 0 m zv)) by (apply where_spec; rewrite Nat.sub_0_r; split; [lia | exact C]).
  destruct (where_from 0 m zv) as [|a r] eqn:E; [destruct K|]. cbn [hd]. assert (I : In a (where_from 0 m zv)) by (rewrite E; left; reflexivity). apply where_spec in I. destruct I as [_ I]. rewrite Nat.sub_0_r in I.
  assert (LA : (a < length zv)%nat) by (apply nth_error_Some; congruence). unfold zv in LA. cbn [length] in *. rewrite map_length in LA.
  destruct (nth_error lons a) eqn:X; [|apply nth_error_None in X; lia]. destruct (nth_error lats a) eqn:Y; [|apply nth_error_None in Y; lia]. eexists. reflexivity.
Qed.
Print Assumptions C85_zmin_exists.
(* with elevations below 32767 and at least one cell with data, nodata cells are never chosen *)
Theorem C85_zmin_data z zs lons lats nodata zmin arg lon lat one : get_zmin_lon_and_lat z zs lons lats nodata = Some (zmin, arg, lon, lat, one) -> (forall v, In v (z :: zs) -> v <> nodata -> (v < 32767)%Z) -> (exists v, In v (z :: zs) /\ v <> nodata) ->
  nth_error (z :: zs) arg = Some zmin /\ zmin <> nodata /\ forall v, In v (z :: zs) -> v <> nodata -> (zmin <= v)%Z.
Proof.
  intros E H (v & I & D). apply C85_zmin in E. cbv zeta in E. destruct E as (A & B & _). set (f := fun v => if Z.eqb v nodata then 32767%Z else v) in *.
  assert (LOW : forall w, In w (z :: zs) -> w <> nodata -> (zmin <= w)%Z). { intros w W N. apply In_nth_error in W. destruct W as (i & W). apply (B i). rewrite (map_nth_error f i _ W). unfold f. apply Z.eqb_neq in N. rewrite N. reflexivity. }
  rewrite nth_error_map in A. destruct (nth_error (z :: zs) arg) as [w|] eqn:W; [|discriminate]. cbn [option_map] in A. injection A as A. unfold f in A. destruct (Z.eqb_spec w nodata) as [->|N].
  - exfalso. specialize (LOW v I D). specialize (H v I D). lia.
  - subst w. split; [reflexivity|]. split; [exact N | exact LOW].
Qed.
Print Assumptions C85_zmin_data.
(* with no data at all the elevation 32767 is returned for the first cell *)
Theorem C85_zmin_no_data_refuted : exists zs lons lats nodata, get_zmin_lon_and_lat nodata zs lons lats nodata = Some (32767%Z, 0%nat, around 4 (hd 0 lons), around 4 (hd 0 lats), false).
Proof. exists [(-9999)%Z], [-100; -99], [40; 41], (-9999)%Z. reflexivity. Qed.
Print Assumptions C85_zmin_no_data_refuted.

Example C85_zmin_case : get_zmin_lon_and_lat (-9999) [40; 12; 15; 12]%Z [-100; -101; -102; -103; -104] [40; 41; 42; 43; 44] (-9999) = Some (12%Z, 2%nat, around 4 (-102), around 4 42, false).
Proof. reflexivity. Qed.
Example C85_box_case : let b := bounding_box (-105) [-104; -(2087 # 20)] 39 [40; 41] (1 # 50) 5 in
  Qeq_bool (minlon b) (-(10502 # 100)) && Qeq_bool (maxlat b) (4102 # 100) && check_bounding_box b (-104) 41 && negb (check_bounding_box b (-104) 42) = true.
Proof. vm_compute. reflexivity. Qed.
Example C85_default_buffer : (1 # 2) / ten 5 < 1 # 50.
Proof. vm_compute. reflexivity. Qed.
Example C85_dms_case : convert_dms true 105 (30) (36) == - (10551 # 100).
Proof. vm_compute. reflexivity. Qed.
