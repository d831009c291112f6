(** C128: fields of fixed width and byte scaling, topoflow/utils/idl_func.py. *)

From Coq Require Import Ascii String List ZArith QArith Bool Arith Lia Lqa.
From Verif Require Import Time_Model Idl_Model.
Import ListNotations.

(** A file that holds the fields one after the other is read back field by field, up to the end of the last one. *)
Theorem C128_fields : forall (fields : list text) (more : list nat) (rest : text),
  readf_fields (length fields) (map (@length ascii) fields ++ more) (concat fields ++ rest) = Ok (fields, rest).
Proof.
  induction fields as [|f l IH]; intros more rest; [reflexivity|]. cbn [length map app readf_fields concat].
  rewrite <- app_assoc, skipn_app, skipn_all, Nat.sub_diag. cbn [skipn app]. rewrite IH. cbn [rbind fst snd].
  rewrite firstn_app, firstn_all, Nat.sub_diag. cbn [firstn]. rewrite app_nil_r. reflexivity.
Qed.
Print Assumptions C128_fields.

(** Whatever the file: no character is lost or read twice, and every field has its width or ends with the file. *)
Theorem C128_nothing_lost : forall n widths file fields rest, readf_fields n widths file = Ok (fields, rest) ->
  concat fields ++ rest = file /\ length fields = n /\
  (forall k f, nth_error fields k = Some f -> exists w, nth_error widths k = Some w /\ (length f = w \/ (length f < w)%nat /\ rest = [])).
Proof.
  induction n as [|n IH]; intros widths file fields rest H; cbn [readf_fields] in H.
  - injection H as <- <-. split; [reflexivity|]. split; [reflexivity|]. intros k f K. destruct k; discriminate K.
  - destruct widths as [|w ws]; [discriminate H|].
    destruct (readf_fields n ws (skipn w file)) as [[fs r]|e] eqn:E; [|discriminate H]. cbn [rbind fst snd] in H.
    injection H as <- <-. destruct (IH ws (skipn w file) fs r E) as (C & L & W). cbn [concat length].
    split; [rewrite <- app_assoc, C; apply firstn_skipn|]. split; [lia|].
    intros [|k] f K; cbn [nth_error] in *; [|exact (W k f K)]. injection K as <-. exists w. split; [reflexivity|].
    rewrite firstn_length. destruct (Nat.le_gt_cases w (length file)) as [G|G]; [left; lia|right].
    split; [lia|]. rewrite (skipn_all2 file) in C by lia. destruct fs as [|g fs]; [exact C|].
    apply app_eq_nil in C. tauto.
Qed.
Print Assumptions C128_nothing_lost.

(** More arguments than fields in the format. *)
Theorem C128_format : forall n widths file pos, (length widths < n)%nat ->
  readf_fields n widths file = Err IndexError /\ reads_fields n widths file pos = Err IndexError.
Proof.
  induction n as [|n IH]; intros [|w ws] file pos L; cbn [length] in L; try lia; [split; reflexivity|].
  cbn [readf_fields reads_fields]. destruct (IH ws (skipn w file) (pos + w)%nat) as [-> _]; [lia|].
  destruct (IH ws file (pos + w)%nat) as [_ ->]; [lia|]. split; reflexivity.
Qed.
Print Assumptions C128_format.

Lemma reads_at : forall (fields : list text) (more : list nat) (before rest : text), Forall (fun f => f <> []) fields ->
  reads_fields (length fields) (map (@length ascii) fields ++ more) (before ++ concat fields ++ rest) (length before) =
  Ok (map (@removelast ascii) fields).
Proof.
  induction fields as [|f l IH]; intros more before rest F; [reflexivity|]. inversion_clear F as [|? ? N F'].
  cbn [length map app reads_fields concat].
  replace (before ++ (f ++ concat l) ++ rest) with ((before ++ f) ++ concat l ++ rest) by (rewrite <- !app_assoc; reflexivity).
  replace (length before + length f)%nat with (length (before ++ f)) by apply app_length.
  rewrite (IH more (before ++ f) rest F'). cbn [rbind]. f_equal. f_equal. unfold reads_field.
  assert (P : (0 < length f)%nat) by (destruct f; [congruence|cbn; lia]).
  destruct (Nat.eqb_spec (length before + length f) 0) as [Z|_]; [lia|].
  rewrite <- app_assoc, skipn_app, skipn_all, Nat.sub_diag. cbn [skipn app].
  rewrite firstn_app. replace (length f - 1 - length f)%nat with 0%nat by lia. cbn [firstn]. rewrite app_nil_r.
  rewrite removelast_firstn_len. f_equal. lia.
Qed.
(** Refuted: a line is read back field by field in the same way.  Each field comes without its last character. *)
Theorem C128_line_refuted : forall (fields : list text) (more : list nat) (rest : text), Forall (fun f => f <> []) fields ->
  reads_fields (length fields) (map (@length ascii) fields ++ more) (concat fields ++ rest) 0 = Ok (map (@removelast ascii) fields) /\
  (fields <> [] -> map (@removelast ascii) fields <> fields).
Proof.
  intros fields more rest F. split; [exact (reads_at fields more [] rest F)|].
  destruct F as [|f l N F]; [intros N; destruct (N eq_refl)|]. intros _ H. cbn [map] in H. injection H as H _.
  apply (f_equal (@length ascii)) in H. rewrite removelast_firstn_len, firstn_length in H.
  destruct f; [congruence|cbn [length] in H; lia].
Qed.
Print Assumptions C128_line_refuted.
(** It is right where each width counts a separator after the field. *)
Theorem C128_line : forall (fields : list text) (sep : ascii) (rest : text),
  reads_fields (length fields) (map (fun f => S (length f)) fields) (concat (map (fun f => f ++ [sep]) fields) ++ rest) 0 = Ok fields.
Proof.
  intros fields sep rest. set (g := map (fun f => f ++ [sep]) fields).
  assert (F : Forall (fun f : text => f <> []) g).
  { apply Forall_forall. intros f I. apply in_map_iff in I. destruct I as (x & <- & _). destruct x; discriminate. }
  destruct (C128_line_refuted g [] rest F) as [H _]. rewrite app_nil_r in H.
  assert (L : length g = length fields) by apply map_length. rewrite <- L.
  assert (M : map (fun f : text => S (length f)) fields = map (@length ascii) g).
  { unfold g. rewrite map_map. apply map_ext. intro x. rewrite app_length. cbn [length]. lia. }
  rewrite M, H. f_equal. unfold g. rewrite map_map. rewrite <- (map_id fields) at 2. apply map_ext. intro x. apply removelast_last.
Qed.
Print Assumptions C128_line.

(** the extremes *)
Lemma qle_case a b : Qle_bool a b = true /\ a <= b \/ Qle_bool a b = false /\ b < a.
Proof.
  destruct (Qle_bool a b) eqn:E; [left|right]; split; auto; [now apply Qle_bool_iff|].
  apply Qnot_le_lt. intro H. apply Qle_bool_iff in H. congruence.
Qed.
Lemma max_spec : forall l x, In (fold_left qmax l x) (x :: l) /\ (forall y, In y (x :: l) -> y <= fold_left qmax l x).
Proof.
  induction l as [|z l IH]; intro x; cbn [fold_left].
  - split; [left; reflexivity|]. intros y [<-|[]]. apply Qle_refl.
  - destruct (IH (qmax x z)) as [I B]. assert (C : (qmax x z = x \/ qmax x z = z) /\ x <= qmax x z /\ z <= qmax x z).
    { unfold qmax. destruct (qle_case x z) as [(-> & H)|(-> & H)]; (split; [auto|split; lra]). }
    destruct C as (C & Cx & Cz). split.
    + destruct I as [I|I]; [rewrite <- I; destruct C as [->| ->]; cbn; auto|cbn; auto].
    + pose proof (B _ (or_introl eq_refl)) as T. intros y [<-|[<-|Y]]; [lra|lra|]. apply B. right. exact Y.
Qed.
Lemma min_spec : forall l x, In (fold_left qmin l x) (x :: l) /\ (forall y, In y (x :: l) -> fold_left qmin l x <= y).
Proof.
  induction l as [|z l IH]; intro x; cbn [fold_left].
  - split; [left; reflexivity|]. intros y [<-|[]]. apply Qle_refl.
  - destruct (IH (qmin x z)) as [I B]. assert (C : (qmin x z = x \/ qmin x z = z) /\ qmin x z <= x /\ qmin x z <= z).
    { unfold qmin. destruct (qle_case x z) as [(-> & H)|(-> & H)]; (split; [auto|split; lra]). }
    destruct C as (C & Cx & Cz). split.
    + destruct I as [I|I]; [rewrite <- I; destruct C as [->| ->]; cbn; auto|cbn; auto].
    + pose proof (B _ (or_introl eq_refl)) as T. intros y [<-|[<-|Y]]; [lra|lra|]. apply B. right. exact Y.
Qed.
Lemma differ a b : a < b -> Qeq_bool (b - a) 0 = false.
Proof. intro H. destruct (Qeq_bool (b - a) 0) eqn:E; [|reflexivity]. apply Qeq_bool_iff in E. lra. Qed.

(** Scaling of floating point numbers, with given limits: the lower one goes to 0, the upper one to the top (plus 0.9999),
    those between are in between and in the same order. *)
Theorem C128_scale : forall a lo hi top, lo < hi -> exists f : Q -> Q,
  bytscl false a (Some hi) (Some lo) top = Ok (map (fun x => Some (f x)) a) /\
  f lo == 0 /\ f hi == inject_Z (top mod 256) + (9999 # 10000) /\
  (forall x y, x < y -> f x < f y) /\ (forall x y, x == y -> f x == f y).
Proof.
  intros a lo hi top L. set (t := inject_Z (top mod 256) + (9999 # 10000)).
  exists (fun x => t * (x - lo) / (hi - lo)). unfold bytscl. cbn [rbind]. rewrite (differ lo hi L). fold t.
  assert (T : 0 < t).
  { unfold t. assert (0 <= inject_Z (top mod 256)).
    { change 0 with (inject_Z 0). rewrite <- Zle_Qle. apply Z.mod_pos_bound. lia. } lra. }
  split; [reflexivity|]. split; [field; lra|]. split; [field; lra|]. split; [|intros x y ->; reflexivity]. intros x y H.
  apply Qlt_shift_div_l; [lra|]. assert (E : t * (x - lo) / (hi - lo) * (hi - lo) == t * (x - lo)) by (field; lra). rewrite E.
  apply Qmult_lt_l; [exact T|lra].
Qed.
Print Assumptions C128_scale.
(** Without limits, all results are from 0 to below top + 1, and both ends of the range are reached. *)
Theorem C128_range : forall a top x y, In x a -> In y a -> x < y -> exists bs, bytscl false a None None top = Ok (map Some bs) /\
  length bs = length a /\ (forall b, In b bs -> 0 <= b /\ b < inject_Z (top mod 256) + 1) /\
  (exists b, In b bs /\ b == 0) /\ (exists b, In b bs /\ b == inject_Z (top mod 256) + (9999 # 10000)).
Proof.
  intros [|z l] top x y X Y H; [destruct X|]. destruct (max_spec l z) as [MI MB]. destruct (min_spec l z) as [NI NB].
  set (hi := fold_left qmax l z) in *. set (lo := fold_left qmin l z) in *.
  assert (L : lo < hi) by (pose proof (NB x X); pose proof (MB y Y); lra).
  destruct (C128_scale (z :: l) lo hi top L) as (f & E & F0 & F1 & FM & FE).
  exists (map f (z :: l)). rewrite map_length. split.
  { rewrite map_map, <- E. unfold bytscl. cbn [extreme rbind]. fold hi lo. reflexivity. }
  split; [reflexivity|].
  assert (W : forall u v, u <= v -> f u <= f v).
  { intros u v U. destruct (Qlt_le_dec u v) as [V|V]; [apply Qlt_le_weak, FM, V|]. rewrite (FE u v); [apply Qle_refl|lra]. }
  split; [|split].
  - intros b B. apply in_map_iff in B. destruct B as (u & <- & U). pose proof (W _ _ (NB u U)). pose proof (W _ _ (MB u U)).
    split; lra.
  - exists (f lo). split; [apply in_map; exact NI|exact F0].
  - exists (f hi). split; [apply in_map; exact MI|exact F1].
Qed.
Print Assumptions C128_range.

(** Refuted: the same for integers.  The smallest one goes below 0. *)
Theorem C128_integer_refuted : forall a lo hi top, In lo a -> lo < hi -> exists b,
  bytscl true a (Some hi) (Some lo) top = Ok b /\ exists x, In (Some x) b /\ x < 0.
Proof.
  intros a lo hi top I L. unfold bytscl. cbn [rbind]. rewrite (differ lo hi L). eexists. split; [reflexivity|].
  eexists. split; [apply in_map_iff; exists lo; split; [reflexivity|exact I]|].
  apply Qlt_shift_div_r; lra.
Qed.
Print Assumptions C128_integer_refuted.
(** but the largest one stays within the top, and the order is kept *)
Theorem C128_integer : forall a lo hi top, lo < hi -> exists f : Q -> Q,
  bytscl true a (Some hi) (Some lo) top = Ok (map (fun x => Some (f x)) a) /\
  f lo == - (1 / (hi - lo)) /\ f hi == inject_Z (top mod 256) + 1 - 1 / (hi - lo) /\ (forall x y, x < y -> f x < f y).
Proof.
  intros a lo hi top L. set (t := inject_Z (top mod 256) + 1).
  exists (fun x => (t * (x - lo) - 1) / (hi - lo)). unfold bytscl. cbn [rbind]. rewrite (differ lo hi L). fold t.
  assert (T : 0 < t).
  { unfold t. assert (0 <= inject_Z (top mod 256)).
    { change 0 with (inject_Z 0). rewrite <- Zle_Qle. apply Z.mod_pos_bound. lia. } lra. }
  split; [reflexivity|]. split; [field; lra|]. split; [field; lra|]. intros x y H.
  apply Qlt_shift_div_l; [lra|]. assert (E : (t * (x - lo) - 1) / (hi - lo) * (hi - lo) == t * (x - lo) - 1) by (field; lra). rewrite E.
  assert (t * (x - lo) < t * (y - lo)) by (apply Qmult_lt_l; [exact T|lra]). lra.
Qed.
Print Assumptions C128_integer.
(** Refuted: values above the upper limit go to the top.  They go beyond it. *)
Theorem C128_clip_refuted : forall a lo hi top x, lo < hi -> hi < x -> In x a -> exists b y,
  bytscl false a (Some hi) (Some lo) top = Ok b /\ In (Some y) b /\ inject_Z (top mod 256) + (9999 # 10000) < y.
Proof.
  intros a lo hi top x L H I. destruct (C128_scale a lo hi top L) as (f & E & _ & F1 & FM & _).
  eexists. exists (f x). split; [exact E|]. split; [apply in_map_iff; exists x; split; [reflexivity|exact I]|].
  rewrite <- F1. apply FM, H.
Qed.
Print Assumptions C128_clip_refuted.
(** An array of one value has no numbers as result, an empty one is an error. *)
Theorem C128_constant_refuted : forall i v n top,
  bytscl i (repeat v (S n)) None None top = Ok (repeat None (S n)) /\ bytscl i [] None None top = Err ValueError.
Proof.
  intros i v n top. split; [|reflexivity]. unfold bytscl.
  assert (M : forall g, (g v v = v) -> fold_left g (repeat v n) v = v).
  { intros g G. induction n as [|m IH]; [reflexivity|]. cbn [repeat fold_left]. rewrite G. exact IH. }
  cbn [repeat extreme rbind]. rewrite !M; [|unfold qmin; destruct (Qle_bool v v); reflexivity|unfold qmax; destruct (Qle_bool v v); reflexivity].
  cbn [rbind]. assert (Z : Qeq_bool (v - v) 0 = true) by (apply Qeq_bool_iff; ring). rewrite Z. f_equal.
  cbn [map]. f_equal. induction n as [|m IH]; [reflexivity|]. cbn [repeat map]. f_equal. apply IH.
  intros g G. clear - G. induction m as [|k IHk]; [reflexivity|]. cbn [repeat fold_left]. rewrite G. exact IHk.
Qed.
Print Assumptions C128_constant_refuted.

(** Non-vacuity. *)
Example C128_case :
  readf_fields 2 [3; 2]%nat (list_ascii_of_string "12345678") = Ok ([list_ascii_of_string "123"; list_ascii_of_string "45"], list_ascii_of_string "678") /\
  reads_fields 2 [3; 2]%nat (list_ascii_of_string "12345678") 0 = Ok [list_ascii_of_string "12"; list_ascii_of_string "4"] /\
  readf_fields 2 [3; 4]%nat (list_ascii_of_string "12345") = Ok ([list_ascii_of_string "123"; list_ascii_of_string "45"], []) /\
  reads_fields 1 [0]%nat (list_ascii_of_string "123") 0 = Ok [list_ascii_of_string "12"] /\
  (exists x y, bytscl true [0; 4] None None 255 = Ok [Some x; Some y] /\ x == - (1 # 4) /\ y == 255 + (3 # 4)).
Proof.
  repeat (split; [reflexivity|]). eexists. eexists. split; [reflexivity|]. split; reflexivity.
Qed.
