(** Properties of droplet flights and of the data of faces after them: C51, C52, C58,
    C69, C70, C71.

    Model: Drops.v (and Geom.v).  Specification vocabulary: DropsSpec.v, GeomSpec.v. *)

From Coq Require Import ZArith Reals Lra List String.
From Verif Require Import Py Geom GeomSpec Drops DropsSpec DropsProofs DropsMore DropsFlight DropsCases.
Import ListNotations.
Open Scope list_scope.
Open Scope R_scope.

(* ================================================================== *)
(** C51.  Flight of a droplet.  For every air field, surface and start data with a
    positive diameter, fly either returns one of its four verdicts with a trajectory or
    raises ZeroDivisionError (see C70 for this case); it never runs forever.

    A trajectory starts in the start point and goes by steps of the equation of motion;
    all its points but the last one are in the box of the air; it has at most
    [max_steps + 1] points ([max_steps] steps); no leg before the last one meets the
    surface; and the verdict is right: 'N' - all steps are done, 'O' - the last point is
    out of the box, 'S' - the next step is shorter than 1e-15, 'C' - the last leg meets
    the triangle whose BackRef is returned.  (A leg that lies along the plane of some
    triangle, within 1e-10, is excepted from claims about meeting: see C42.)

    What is missing from the property: "at most [max_steps] points" is false, see
    below. *)
Theorem C51_fly_partial : forall ds l p vel d dt max_steps, ds <> [] -> l <> [] -> 0 < d ->
  exists b s c, box_of (map fst ds) = Ok b /\ make_space ds = Ok s /\ triangles_cloud l = Ok c /\
  ((exists vd f pts vs,
      fly s p vel d dt c max_steps = Ok (vd, f, pts) /\
      hd_error pts = Some p /\ hd_error vs = Some vel /\ trajectory ds d dt pts vs /\
      (forall x, In x (removelast pts) -> in_box b x) /\
      (List.length pts <= Z.to_nat max_steps + 1)%nat /\
      (forall i x y t z, leg pts i x y -> (S (S i) < List.length pts)%nat \/ vd <> VC -> crosswise l x y -> In t l -> ~ common t (Seg x y) z) /\
      match vd with
      | VN => f = None /\ (max_steps < Z.of_nat (List.length pts))%Z
      | VO => f = None /\ exists q x, pts = q ++ [x] /\ ~ in_box b x
      | VS => f = None /\ exists q x us v, pts = q ++ [x] /\ vs = us ++ [v] /\ in_box b x /\ vmod (vmul v dt) < / 1000000000000000
      | VC => exists q x y t, pts = q ++ [x; y] /\ In t l /\ f = Some (t_ref t) /\
                (crosswise l x y -> exists z, common t (Seg x y) z)
      end) \/
   (fly s p vel d dt c max_steps = Raise EZeroDivisionError /\
    exists q x us n, hd_error (q ++ [x]) = Some p /\ hd_error (us ++ [snd n]) = Some vel /\
      trajectory ds d dt (q ++ [x]) (us ++ [snd n]) /\ first_nearest fst ds x n)).
Proof. exact fly_ok. Qed.
Print Assumptions C51_fly_partial.

(** A flight that ends on a face. *)
Example C51_example : exists c, triangles_cloud (get_triangles_list two_faces) = Ok c /\
  fly (Space still_air air_box) (V3 1 1 1) (V3 0 0 (-2)) 1 1 c 1 = Ok (VC, Some 0%nat, [V3 1 1 1; V3 1 1 (-1)]).
Proof. exact more_points. Qed.

(** "A trajectory has at most max_steps points" (the help text of --max_fly_steps) is
    false. *)
Theorem C51_points_refuted : exists ds l p vel d dt max_steps s c vd f pts,
  0 < d /\ (1 <= max_steps)%Z /\ make_space ds = Ok s /\ triangles_cloud l = Ok c /\
  fly s p vel d dt c max_steps = Ok (vd, f, pts) /\ ~ (Z.of_nat (List.length pts) <= max_steps)%Z.
Proof.
  destruct more_points as (c & Ec & E).
  exists still_air, (get_triangles_list two_faces), (V3 1 1 1), (V3 0 0 (-2)), 1, 1, 1%Z, (Space still_air air_box), c, VC, (Some 0%nat), [V3 1 1 1; V3 1 1 (-1)].
  repeat (split; auto); try lra; cbn; discriminate || (intros H; apply H; reflexivity).
Qed.
Print Assumptions C51_points_refuted.

(* ================================================================== *)
(** C52.  Secondary impingement.  [is] lists the faces whose droplets ended on face [j].
    If there is at most one, MImp2 * area is the mass of these droplets (the face had no
    MImp2 before). *)
Theorem C52_mass_partial : forall fs ds d dt thr n gs trs,
  Forall dict_ok fs -> drops fs ds d dt thr n = Ok (gs, trs) ->
  forall c air j f g is,
  triangles_cloud (get_triangles_list fs) = Ok c -> make_space ds = Ok air ->
  nth_error fs j = Some f -> nth_error gs j = Some g ->
  (forall i, In i is <-> lands air c d dt thr n fs i j) -> (List.length is <= 1)%nat ->
  getitem f kMImp2 = 0 ->
  getitem g kMImp2 * area (get_triangle f j) = masses fs is.
Proof. exact mass_one. Qed.
Print Assumptions C52_mass_partial.

(** If two or more droplets ended on the face, MImp2 * area is less than their mass:
    only the last one is counted. *)
Theorem C52_mass_lost : forall fs ds d dt thr n gs trs,
  Forall dict_ok fs -> drops fs ds d dt thr n = Ok (gs, trs) ->
  forall c air j f g is,
  triangles_cloud (get_triangles_list fs) = Ok c -> make_space ds = Ok air ->
  nth_error fs j = Some f -> nth_error gs j = Some g ->
  NoDup is -> (forall i, In i is <-> lands air c d dt thr n fs i j) -> (2 <= List.length is)%nat -> 0 <= thr ->
  getitem g kMImp2 * area (get_triangle f j) < masses fs is.
Proof. exact mass_lost. Qed.
Print Assumptions C52_mass_lost.

(** Two droplets of mass 1 end on the first of two faces. *)
Example C52_example : exists c, triangles_cloud (get_triangles_list two_faces) = Ok c /\
  (forall i, In i [0%nat; 1%nat] <-> lands (Space still_air air_box) c 1 1 0 1 two_faces i 0) /\
  exists gs, drops two_faces still_air 1 1 0 1 = Ok (gs, [(0%nat, [V3 1 1 1; V3 1 1 (-1)]); (1%nat, [V3 1 1 1; V3 1 1 (-1)])]).
Proof. exact two_land. Qed.

Theorem C52_mass_refuted : exists fs ds d dt thr n gs trs c air j f g is,
  Forall dict_ok fs /\ drops fs ds d dt thr n = Ok (gs, trs) /\
  triangles_cloud (get_triangles_list fs) = Ok c /\ make_space ds = Ok air /\
  nth_error fs j = Some f /\ nth_error gs j = Some g /\ getitem f kMImp2 = 0 /\
  NoDup is /\ (forall i, In i is <-> lands air c d dt thr n fs i j) /\
  getitem g kMImp2 * area (get_triangle f j) <> masses fs is.
Proof.
  destruct two_land as (c & Ec & His & gs & E).
  assert (D : Forall dict_ok two_faces) by (repeat constructor; cbn; intuition discriminate).
  assert (Lg : List.length gs = 2%nat) by (destruct (drops_ok _ _ _ _ _ _ _ _ D E) as (_ & _ & _ & _ & L & _); exact L).
  destruct gs as [|g gs]; [discriminate|].
  exists two_faces, still_air, 1, 1, 0, 1%Z, (g :: gs). eexists. exists c, (Space still_air air_box), 0%nat, low, g, [0%nat; 1%nat].
  assert (N : NoDup [0%nat; 1%nat]) by (repeat constructor; cbn; intuition discriminate).
  repeat split; eauto; try apply His.
  apply Rlt_not_eq. apply (mass_lost _ _ _ _ _ _ _ _ D E c (Space still_air air_box) 0%nat low g [0%nat; 1%nat]); auto; lra.
Qed.
Print Assumptions C52_mass_refuted.

(* ================================================================== *)
(** C58.  Removal of stall data: exactly the five fields go away from every face, the
    order of the others is kept; KeyError if some face lacks one of them. *)
Theorem C58_convert : forall fs, Forall dict_ok fs -> (forall f k, In f fs -> is_stall k -> In k (keys (df_data f))) ->
  exists gs, convert_grid_stall_to_check_point fs = Ok gs /\
  Forall2 (fun f g => same_place f g /\ dict_ok g /\
    (forall k, is_stall k -> dget str_dec (df_data g) k = None) /\
    (forall k, ~ is_stall k -> dget str_dec (df_data g) k = dget str_dec (df_data f) k) /\
    (exists keep, keys (df_data g) = filter keep (keys (df_data f)) /\ forall k, keep k = true <-> ~ is_stall k)) fs gs.
Proof. exact convert_ok. Qed.
Print Assumptions C58_convert.

Theorem C58_missing : forall fs f k, Forall dict_ok fs -> In f fs -> is_stall k -> ~ In k (keys (df_data f)) ->
  convert_grid_stall_to_check_point fs = Raise EKeyError.
Proof. exact convert_missing. Qed.
Print Assumptions C58_missing.

(** T, Hw, Hi of every face become 0, nothing else changes. *)
Theorem C58_clean : forall fs, Forall2 (fun f g => same_place f g /\ (dict_ok f -> dict_ok g) /\
    (forall k, In k [lit "T"; lit "Hw"; lit "Hi"] -> dget str_dec (df_data g) k = Some 0) /\
    (forall k, ~ In k [lit "T"; lit "Hw"; lit "Hi"] -> dget str_dec (df_data g) k = dget str_dec (df_data f) k)) fs (clean_t_hw_hi fs).
Proof. exact clean_ok. Qed.
Print Assumptions C58_clean.

Example C58_example : Forall dict_ok two_faces /\ (forall f k, In f two_faces -> is_stall k -> In k (keys (df_data f))) /\
  convert_grid_stall_to_check_point two_faces = Ok [DFace (V3 0 0 0) (V3 3 0 0) (V3 0 3 0) []; DFace (V3 0 0 2) (V3 0 3 2) (V3 3 0 2) []].
Proof.
  split; [repeat constructor; cbn; intuition discriminate|]. split; [|reflexivity].
  intros f k [<-|[<-|[]]] H; exact H.
Qed.

(* ================================================================== *)
(** C69.  Drag.  One step moves the droplet by v * dt and changes its velocity in the
    direction of the velocity of the air, [drag_rate] being the drag law; the relative
    velocity is multiplied by 1 - rate * dt, so it does not grow while rate * dt <= 2. *)
Theorem C69_drag_law : forall p v w d dt, 0 < d -> v <> w ->
  exists p' v', fly_step p v w d dt = Ok (p', v') /\ moved d dt w p v p' v' /\ 0 < drag_rate (dist_to v w) d /\
    vsub v' w = vmul (vsub v w) (1 - drag_rate (dist_to v w) d * dt).
Proof.
  intros p v w d dt Hd Hv. destruct (fly_step_ok p v w d dt Hd Hv) as (p' & v' & E & M).
  exists p', v'. split; auto. split; auto. split; [apply drag_rate_pos; auto; apply vmod_pos_ne; auto|].
  apply (relative_speed _ _ _ _ _ _ _ M).
Qed.
Print Assumptions C69_drag_law.

Theorem C69_speed_partial : forall p v w d dt, 0 < d -> 0 <= dt -> v <> w -> drag_rate (dist_to v w) d * dt <= 2 ->
  exists p' v', fly_step p v w d dt = Ok (p', v') /\ dist_to v' w <= dist_to v w.
Proof. exact speed_not_growing. Qed.
Print Assumptions C69_speed_partial.

(** Without a bound on the time step it can grow, also with the default time step 1e-5
    (a droplet of one micron). *)
Theorem C69_speed_refuted : exists p v w d dt p' v', 0 < d /\ dt = / 100000 /\ v <> w /\
  fly_step p v w d dt = Ok (p', v') /\ dist_to v w < dist_to v' w.
Proof. exact step_unstable. Qed.
Print Assumptions C69_speed_refuted.

Example C69_example : 0 < 1 /\ V3 0 0 (-2) <> V3 0 0 0 /\ 2 < drag_rate 1 (/ 1000000) * / 100000.
Proof. split; [lra|]. split; [intros Q; inversion Q; lra|exact small_droplet]. Qed.

(* ================================================================== *)
(** C70.  Exceptions of fly_step: none for a positive diameter and a velocity different
    from that of the air; ZeroDivisionError if they are equal (or the diameter is zero),
    ValueError for a negative diameter.  So "fly always returns a verdict" is false. *)
Theorem C70_step_partial : forall p v w d dt,
  (0 < d -> v <> w -> exists r, fly_step p v w d dt = Ok r) /\
  (d = 0 \/ v = w -> fly_step p v w d dt = Raise EZeroDivisionError) /\
  (d < 0 -> v <> w -> fly_step p v w d dt = Raise EValueError).
Proof.
  intros p v w d dt. split; [|split].
  - intros Hd Hv. destruct (fly_step_ok p v w d dt Hd Hv) as (p' & v' & E & _). eauto.
  - apply fly_step_raise.
  - apply fly_step_negative.
Qed.
Print Assumptions C70_step_partial.

Theorem C70_calm_refuted : exists ds s l c p vel d dt max_steps, ds <> [] /\ make_space ds = Ok s /\ l <> [] /\ triangles_cloud l = Ok c /\
  0 < d /\ 0 < dt /\ (0 < max_steps)%Z /\ fly s p vel d dt c max_steps = Raise EZeroDivisionError.
Proof.
  destruct calm_flight as (l & c & Hl & Ec & E).
  exists still_air, (Space still_air air_box), l, c, (V3 1 1 1), (V3 0 0 0), 1, 1, 10%Z.
  repeat (split; auto); try lra. discriminate.
Qed.
Print Assumptions C70_calm_refuted.

(* ================================================================== *)
(** C71.  drops as a whole: the faces stay where they are; every face with Stall above
    the threshold has exactly one trajectory, in the order of faces, and it is the
    trajectory of the flight from this face over the whole surface; data other than the
    stall fields, T, Hw, Hi and MImp2 stay; MImp2 changes only where a droplet landed. *)
Theorem C71_drops : forall fs ds d dt thr n gs trs, Forall dict_ok fs -> drops fs ds d dt thr n = Ok (gs, trs) ->
  exists c air, triangles_cloud (get_triangles_list fs) = Ok c /\ make_space ds = Ok air /\ List.length gs = List.length fs /\
  (map fst trs = filter (fun i => match nth_error fs i with Some f => Rltb thr (getitem f kStall) | None => false end) (seq 0 (List.length fs))) /\
  (forall i tr, In (i, tr) trs -> exists f vd h, nth_error fs i = Some f /\ flight air c d dt n f i = Ok (vd, h, tr)) /\
  forall j f g, nth_error fs j = Some f -> nth_error gs j = Some g ->
    same_place f g /\
    (forall k, is_stall k -> dget str_dec (df_data g) k = None) /\
    (forall k, In k [lit "T"; lit "Hw"; lit "Hi"] -> dget str_dec (df_data g) k = Some 0) /\
    (forall k, ~ is_stall k -> ~ In k [lit "T"; lit "Hw"; lit "Hi"] -> k <> lit "MImp2" -> dget str_dec (df_data g) k = dget str_dec (df_data f) k) /\
    (forall i fi, nth_error fs i = Some fi -> lands air c d dt thr n fs i j -> (forall i', lands air c d dt thr n fs i' j -> (i' <= i)%nat) ->
       area (get_triangle f j) <> 0 /\ dget str_dec (df_data g) (lit "MImp2") = Some (getitem fi kStall / area (get_triangle f j))) /\
    ((forall i, ~ lands air c d dt thr n fs i j) -> dget str_dec (df_data g) (lit "MImp2") = dget str_dec (df_data f) (lit "MImp2")).
Proof. exact drops_ok. Qed.
Print Assumptions C71_drops.

Example C71_example : Forall dict_ok two_faces /\ exists r, drops two_faces still_air 1 1 0 1 = Ok r.
Proof.
  split; [repeat constructor; cbn; intuition discriminate|].
  destruct two_land as (c & _ & _ & gs & E). eauto.
Qed.

(** C71.  The flight of the droplet of a face: it starts above the centre of the face at the
    given distance with the velocity of the face, and obeys the law of motion with
    the diameter of the face; until the end it stays within the air and meets no face;
    the face reported at the end is a face of the surface that the last leg meets. *)
Theorem C71_flight : forall fs ds c air d dt n f i vd h tr,
  triangles_cloud (get_triangles_list fs) = Ok c -> make_space ds = Ok air -> ds <> [] -> In f fs -> 0 < getitem f kStallD ->
  flight air c d dt n f i = Ok (vd, h, tr) ->
  exists b p vs, box_of (map fst ds) = Ok b /\ hd_error tr = Some p /\ above f d p /\
    hd_error vs = Some (V3 (getitem f kStallVX) (getitem f kStallVY) (getitem f kStallVZ)) /\
    trajectory ds (getitem f kStallD) dt tr vs /\
    (forall x, In x (removelast tr) -> in_box b x) /\
    (forall k x y g, leg tr k x y -> (S (S k) < List.length tr)%nat \/ vd <> VC -> across fs x y -> In g fs -> ~ meets g x y) /\
    match vd with
    | VC => exists j g q x y, h = Some j /\ nth_error fs j = Some g /\ tr = q ++ [x; y] /\ (across fs x y -> meets g x y)
    | VN => h = None /\ (n < Z.of_nat (List.length tr))%Z
    | VO => h = None /\ exists q x, tr = q ++ [x] /\ ~ in_box b x
    | VS => h = None /\ exists q x us v, tr = q ++ [x] /\ vs = us ++ [v] /\ in_box b x /\ vmod (vmul v dt) < / 1000000000000000
    end.
Proof. exact flight_ok. Qed.
Print Assumptions C71_flight.

Example C71_flight_example : exists c, triangles_cloud (get_triangles_list two_faces) = Ok c /\ In high two_faces /\ 0 < getitem high kStallD /\
  flight (Space still_air air_box) c 1 1 1 high 1 = Ok (VC, Some 0%nat, [V3 1 1 1; V3 1 1 (-1)]).
Proof.
  destruct fall as (c & Ec & E). exists c. split; [exact Ec|]. split; [right; left; reflexivity|]. split; [cbn; lra|].
  apply still_flight; cbn; auto using high_orth.
Qed.
