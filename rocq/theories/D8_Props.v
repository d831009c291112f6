(* C05 - C10: D8 flow directions, flat linking, parent IDs and contributing area. *)
From Coq Require Import ZArith QArith List Lia.
From Verif Require Import Base D8_Model D8_Spec D8_Proofs D8_Walk D8_Area.
Import ListNotations.
Local Open Scope Z_scope.

(* C05: any nonzero set of tied directions (a sum of direction codes) resolves to one of them. *)
Theorem C05_resolve_picks_a_tied_direction : forall c, 1 <= c <= 255 ->
  is_code (resolve_at c) /\ Z.land c (resolve_at c) = resolve_at c.
Proof. exact resolve_picks. Qed.
Print Assumptions C05_resolve_picks_a_tied_direction.

(* C06: the flow grid exists, holds only 0 or valid codes; a nonzero code points to a cell that is not
   higher, along a steepest direction; closed sides hold 0; and (with BREAK_TIES) a cell with a strictly
   lower neighbour and no NaN neighbour does get a direction. *)
Theorem C06_flow_codes_valid_downhill_steepest : forall G O dem, geom_ok G ->
  exists d, update_flow_grid G O dem = Some d /\ code_grid G d /\
  (forall i, (i < ncells G)%nat -> get 0 d i <> 0 ->
     exists j z zj, next G d i = Some j /\ (j < ncells G)%nat /\
       elev dem i = Some z /\ (DEM_nodata O < z)%Q /\ elev dem j = Some zj /\ (zj <= z)%Q /\
       (forall c j', target G i c = Some j' -> exists z', elev dem j' = Some z' /\
          ((z - z') / step_length G c <= (z - zj) / step_length G (get 0%Z d i))%Q)) /\
  (forall i, (i < ncells G)%nat -> closed_side G O i -> get 0 d i = 0) /\
  (forall i z, (i < ncells G)%nat -> BREAK_TIES O = true -> ~ closed_side G O i ->
     elev dem i = Some z -> (DEM_nodata O < z)%Q ->
     (forall c j, target G i c = Some j -> elev dem j <> None) ->
     (exists c j zj, target G i c = Some j /\ elev dem j = Some zj /\ (zj < z)%Q) ->
     get 0 d i <> 0).
Proof. exact flow_grid_main. Qed.
Print Assumptions C06_flow_codes_valid_downhill_steepest.

(* C07: following the codes never revisits a cell, and reaches a cell with code 0 in fewer steps than
   there are cells; for every DEM and every option setting. *)
Theorem C07_flow_grid_acyclic : forall G O dem d, geom_ok G ->
  update_flow_grid G O dem = Some d ->
  acyclic G d /\
  forall i, (i < ncells G)%nat -> exists m j, (m < ncells G)%nat /\ walk G d m i = Some j /\ get 0 d j = 0.
Proof. exact flow_grid_walks. Qed.
Print Assumptions C07_flow_grid_acyclic.

(* C08: flat linking terminates, and afterwards every interior cell of a flat that still has no direction
   is surrounded, at its own elevation, only by cells with no direction or that flow into it. *)
Theorem C08_link_flats_complete : forall G O dem, geom_ok G ->
  BREAK_TIES O = true -> LINK_FLATS O = true ->
  exists d, update_flow_grid G O dem = Some d /\
  forall i z, (i < ncells G)%nat -> ~ on_LR G i -> ~ on_TB G i ->
    elev dem i = Some z -> (DEM_nodata O < z)%Q ->
    (forall c j, target G i c = Some j -> exists zj, elev dem j = Some zj /\ (z <= zj)%Q) ->
    get 0 d i = 0 ->
    forall c j zj, target G i c = Some j -> elev dem j = Some zj -> (zj == z)%Q ->
    get 0 d j = 0 \/ next G d j = Some i.
Proof. exact (fun G O dem HG => flats_linked G HG O dem). Qed.
Print Assumptions C08_link_flats_complete.

(* C09: parent IDs are the flow targets (0 for cells without code), and are distinct for distinct cells
   with the same code.  The hypothesis is what C06 shows of every computed flow grid. *)
Theorem C09_parent_IDs : forall G O d, geom_ok G ->
  (forall i, (i < ncells G)%nat -> closed_side G O i -> get 0 d i = 0) ->
  let p := update_parent_ID_grid G O d in
  length p = ncells G /\
  (forall i, (i < ncells G)%nat ->
     (forall j, next G d i = Some j -> get 0 p i = Z.of_nat j) /\ (get 0 d i = 0 -> get 0 p i = 0)) /\
  (forall i i', (i < ncells G)%nat -> (i' < ncells G)%nat -> is_code (get 0 d i) ->
     get 0 d i = get 0 d i' -> get 0 p i = get 0 p i' -> i = i').
Proof. exact (fun G O d HG => parent_grid G HG O d). Qed.
Print Assumptions C09_parent_IDs.

(* C10: on an acyclic grid the area loop ends, not unfinished, and every cell with a code holds the sum of
   the pixel areas of exactly the cells that drain to it (itself included); cells with code 0 hold 0. *)
Theorem C10_area_is_upstream_sum : forall G d pa A0, geom_ok G ->
  acyclic G d -> (forall i, (i < ncells G)%nat -> (0 < pa i)%Q) ->
  length A0 = ncells G -> (forall i, (i < ncells G)%nat -> (0 <= get 0 A0 i)%Q) ->
  exists A, update_area_grid G d pa A0 = Some (A, false) /\ length A = ncells G /\
    forall i, (i < ncells G)%nat ->
      (get 0%Z d i = 0%Z -> (get 0 A i == 0)%Q) /\
      (get 0%Z d i <> 0%Z -> exists L, NoDup L /\ (forall j, In j L <-> (j < ncells G)%nat /\ drains G d j i) /\
                                  (get 0 A i == qsuml pa L)%Q).
Proof. exact area_grid_main. Qed.
Print Assumptions C10_area_is_upstream_sum.

(* Non-vacuity: a 6x5 DEM with a NaN cell, a nodata cell, a two-cell flat that links, and a pit. *)
Definition demoG : geom := mkGeom 6 5 1 1 (3#2).
Definition demoO : opts := mkOpts true true false false (-9999).
Definition demo_dem : list (option Q) :=
  map (fun z => if (z =? 77)%Z then None else Some (inject_Z z))
  [9; 9; 9; 9; 9; 9;
   9; 5; 5; 5; 4; 9;
   9; 7; 8; 9; 3; 2;
   9; -9999; 8; 1; 9; 9;
   77; 9; 9; 9; 9; 9].
Example demo_geom_ok : geom_ok demoG.
Proof. repeat split; reflexivity. Qed.
Example C06_demo : update_flow_grid demoG demoO demo_dem =
  Some [0; 0; 0; 0; 0; 0;
        0; 2; 2; 4; 4; 0;
        0; 8; 16; 8; 16; 0;
        0; 0; 32; 0; 32; 0;
        0; 0; 0; 0; 0; 0].
Proof. vm_compute. reflexivity. Qed.
Definition demo_d : list Z := match update_flow_grid demoG demoO demo_dem with Some d => d | None => [] end.
Example C08_demo_flat_cell : nth 7 demo_d 0 = 2 /\ elev demo_dem 7 = elev demo_dem 8.
Proof. vm_compute. auto. Qed.
Example C10_demo :
  option_map (fun r => (map Qred (fst r), snd r)) (update_area_grid demoG demo_d (fun _ => 1%Q) (repeat 0%Q 30)) =
  Some (map inject_Z [0; 0; 0; 0; 0; 0;
                      0; 1; 2; 3; 1; 0;
                      0; 1; 1; 1; 4; 0;
                      0; 0; 1; 0; 1; 0;
                      0; 0; 0; 0; 0; 0], false).
Proof. vm_compute. reflexivity. Qed.
