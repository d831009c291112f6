(* C67, continued: channel widths made from the D8 contributing areas grow downstream. *)
From Coq Require Import ZArith QArith Qreals Reals Lra Lia List Bool.
From Verif Require Import Base D8_Model D8_Spec D8_Walk D8_Proofs D8_Props Prep_Model Prep_Spec Tca_Props.
Import ListNotations.
Local Open Scope R_scope.

Lemma qsuml_incl (f : nat -> Q) (L M : list nat) : NoDup L -> NoDup M -> incl L M -> (forall x, In x M -> (0 <= f x)%Q) ->
  (qsuml f L <= qsuml f M)%Q.
Proof.
  revert M. induction L as [|a L IH]; intros M NL NM I P.
  - rewrite qsuml_nil. clear I. clear NM. induction M as [|b M IHM]; [rewrite qsuml_nil; apply Qle_refl|]. rewrite qsuml_cons.
    setoid_replace 0%Q with (0 + 0)%Q by ring. apply Qplus_le_compat; [apply P; left; reflexivity|]. apply IHM. intros x Hx. apply P. right. exact Hx.
  - assert (In a M) as Ha by (apply I; left; reflexivity). destruct (in_split _ _ Ha) as (M1 & M2 & ->).
    inversion NL as [|? ? N1 N2]. subst. rewrite qsuml_app, !qsuml_cons.
    assert (qsuml f L <= qsuml f (M1 ++ M2))%Q as H.
    { apply IH; [exact N2|apply NoDup_remove_1 in NM; exact NM| |].
      - intros x Hx. specialize (I x (or_intror Hx)). apply in_app_iff in I. apply in_app_iff. destruct I as [I|[<-|I]]; [left; exact I| |right; exact I].
        contradiction.
      - intros x Hx. apply P. apply in_app_iff in Hx. apply in_app_iff. destruct Hx; [left|right; right]; assumption. }
    rewrite qsuml_app in H.
    apply (Qplus_le_compat (f a) (f a)) in H; [|apply Qle_refl].
    eapply Qle_trans; [exact H|]. apply Qle_lteq. right. ring.
Qed.

Lemma area_downstream G d pa A0 A : geom_ok G -> acyclic G d -> (forall i, (i < ncells G)%nat -> (0 < pa i)%Q) ->
  length A0 = ncells G -> (forall i, (i < ncells G)%nat -> (0 <= get 0%Q A0 i)%Q) ->
  update_area_grid G d pa A0 = Some (A, false) ->
  length A = ncells G /\
  forall i j, (i < ncells G)%nat -> (j < ncells G)%nat -> next G d i = Some j ->
  (get 0%Z d j = 0%Z -> (get 0%Q A j == 0)%Q) /\ (0 < get 0%Q A i)%Q /\
  (get 0%Z d j <> 0%Z -> (get 0%Q A i + pa j <= get 0%Q A j)%Q).
Proof.
  intros Hg Ha Hp HL H0 E. destruct (C10_area_is_upstream_sum G d pa A0 Hg Ha Hp HL H0) as (A' & E' & LA & Q).
  rewrite E in E'. injection E' as <-. split; [exact LA|]. intros i j Hi Hj Hn.
  assert (Hd : get 0%Z d i <> 0%Z).
  { intros Z. unfold next, target in Hn. rewrite Z in Hn. discriminate Hn. }
  split; [apply (Q j Hj)|]. destruct (Q i Hi) as [_ Q1]. destruct (Q1 Hd) as (L & NL & ML & SL).
  assert (iL : In i L) by (apply ML; split; [exact Hi|]; exists 0%nat; reflexivity).
  split.
  - rewrite SL. eapply Qlt_le_trans; [apply (Hp i Hi)|].
    assert (X := qsuml_incl pa [i] L ltac:(constructor; [intros []|constructor]) NL ltac:(intros x [<-|[]]; exact iL)).
    rewrite qsuml_cons, qsuml_nil in X. setoid_replace (pa i) with (pa i + 0)%Q by ring. apply X.
    intros x Hx. apply Qlt_le_weak, Hp. apply ML. exact Hx.
  - intros Hdj. destruct (Q j Hj) as [_ Q2]. destruct (Q2 Hdj) as (M & NM & MM & SM). rewrite SL, SM.
    assert (X := qsuml_incl pa (j :: L) M). rewrite qsuml_cons in X. rewrite Qplus_comm. apply X; [|exact NM| |].
    + constructor; [|exact NL]. intros Hin. apply ML in Hin as [_ [m Hm]].
      (* j drains to i and i to j: a cycle *)
      assert (W : walk G d (S m) i = Some i) by (cbn [walk]; rewrite Hn; exact Hm).
      discriminate (Ha i (S m) Hi W).
    + intros x [<-|Hx]; [apply MM; split; [exact Hj|exists 0%nat; reflexivity]|]. apply ML in Hx as [H1 [m Hm]]. apply MM. split; [exact H1|].
      exists (S m). eapply walk_snoc; [exact Hm|exact Hn].
    + intros x Hx. apply Qlt_le_weak, Hp. apply MM. exact Hx.
Qed.

(* With the area grid of the D8 tool, a positive exponent and any width at the largest area: a cell is never
   wider than the cell it flows into, unless that cell has no flow code (an edge, a pit), where the width is 1. *)
Theorem C67_wider_downstream : forall G d pa A0 A A1 g1 p w,
  geom_ok G -> acyclic G d -> (forall i, (i < ncells G)%nat -> (0 < pa i)%Q) ->
  length A0 = ncells G -> (forall i, (i < ncells G)%nat -> (0 <= get 0%Q A0 i)%Q) ->
  update_area_grid G d pa A0 = Some (A, false) -> 0 < g1 -> 0 <= p ->
  get_grid_from_TCA (map Q2R A) A1 (Some g1) None None (Some p) = Written w ->
  forall i j x y, (i < ncells G)%nat -> (j < ncells G)%nat -> next G d i = Some j -> holds w i x -> holds w j y ->
  0 < x /\ (get 0%Z d j <> 0%Z -> x <= y) /\ (get 0%Z d j = 0%Z -> y = 1).
Proof.
  intros G d pa A0 A A1 g1 p w Hg Ha Hp HL H0 E Hg1 Hpp EW i j x y Hi Hj Hn Hx Hy.
  destruct (area_downstream G d pa A0 A Hg Ha Hp HL H0 E) as [LA D]. destruct (D i j Hi Hj Hn) as (D1 & D2 & D3).
  assert (N : forall k, (k < ncells G)%nat -> holds (map Q2R A) k (Q2R (get 0%Q A k))).
  { intros k Hk. unfold holds. rewrite nth_error_map. unfold get. rewrite (nth_error_nth' A 0%Q) by lia. reflexivity. }
  assert (Pi : 0 < Q2R (get 0%Q A i)) by (rewrite <- RMicromega.Q2R_0; apply Qlt_Rlt; exact D2).
  split; [|split].
  - exact (proj2 (proj2 (C67_grows_with_area _ _ _ _ _ Hg1 EW i i _ _ x x (N i Hi) (N i Hi) Hx Hx (conj Pi (Rle_refl _))))).
  - intros Hdj. specialize (D3 Hdj).
    assert (Q2R (get 0%Q A i) <= Q2R (get 0%Q A j)).
    { apply Qle_Rle. eapply Qle_trans; [|exact D3]. setoid_replace (get 0%Q A i) with (get 0%Q A i + 0)%Q at 1 by ring.
      apply Qplus_le_compat; [apply Qle_refl|]. apply Qlt_le_weak, Hp, Hj. }
    exact (proj1 (C67_grows_with_area _ _ _ _ _ Hg1 EW i j _ _ x y (N i Hi) (N j Hj) Hx Hy (conj Pi H)) Hpp).
  - intros Hdj. specialize (D1 Hdj).
    assert (exists am, is_max (map Q2R A) am) as [am Hm].
    { destruct (map Q2R A) as [|z l]; [destruct A1; discriminate EW|]. exists (maxl z l). destruct (maxl_spec z l). split; assumption. }
    destruct (C67_given_exponent _ A1 g1 p am Hm) as (g' & E' & _ & Q). rewrite EW in E'. injection E' as <-.
    destruct (Q j _ (N j Hj)) as [_ Q1]. apply Qeq_eqR in D1. rewrite RMicromega.Q2R_0 in D1. specialize (Q1 ltac:(lra)).
    unfold holds in *. rewrite Hy in Q1. injection Q1 as ->. reflexivity.
Qed.
Print Assumptions C67_wider_downstream.

(* Non-vacuity: the demonstration grid of D8_Props. *)
Example C67_demo_downstream :
  exists A, update_area_grid demoG demo_d (fun _ => 1%Q) (repeat 0%Q 30) = Some (A, false) /\
  (get 0 A 8 == 2)%Q /\ (get 0 A 9 == 3)%Q /\ next demoG demo_d 8 = Some 9%nat.
Proof.
  destruct (update_area_grid demoG demo_d (fun _ => 1%Q) (repeat 0%Q 30)) as [[A b]|] eqn:E; vm_compute in E; [|discriminate E].
  injection E as <- <-. eexists. split; [reflexivity|]. split; [reflexivity|]. split; reflexivity.
Qed.
