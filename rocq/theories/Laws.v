(** Model of phys/laws.py and of cpp/src/swim.cpp, and of the names of intermediate files of
    smoothing.py.  Numbers are real numbers. *)

From Coq Require Import Reals ZArith Ascii String Bool List.
From Verif Require Import Py Geom.
Import ListNotations.
Open Scope list_scope.
Open Scope R_scope.

(* ---------------------------------------------------------------- *)
(** ** phys/laws.py *)

(** The number m * 10^(-k). *)
Definition dec (m : Z) (k : nat) : R := IZR m / 10 ^ k.

(** _KilocalorieDjoules, laws.py:4. *)
Definition kilocalorie : R := dec 41868 1.

(** _water_dynamic_viscosity_data, laws.py:9-15. *)
Definition water_dynamic_viscosity_x : list R := map (fun m => dec m 0) [
   0; 5; 10; 20; 30; 40; 50; 60; 70; 80; 90; 100]%Z.
Definition water_dynamic_viscosity_y : list R := map (fun m => dec m 6) [
   1787; 1519; 1307; 1002; 798; 653; 547; 467; 404; 355; 315; 282]%Z.

(** _water_specific_heat_capacity_data, laws.py:18-25, 26. *)
Definition water_specific_heat_capacity_x : list R := map (fun m => dec m 0) [
   (-9); (-8); (-7); (-6); (-5); (-4); (-3); (-2); (-1); 0; 1; 2; 3; 4; 5; 6; 7; 9; 10; 11;
   12; 14; 15; 17; 18; 22; 23; 29]%Z.
Definition water_specific_heat_capacity_y : list R := map (fun v => v * kilocalorie) (map (fun m => dec m 3) [
   1019; 1018; 1017; 1016; 1015; 1014; 1013; 1012; 1011; 1010; 1009; 1008; 1008; 1007; 1006;
   1005; 1004; 1004; 1003; 1003; 1002; 1002; 1001; 1001; 1000; 1000; 999; 999]%Z).

(** _ice_specific_heat_capacity_data, laws.py:29-34, 35. *)
Definition ice_specific_heat_capacity_x : list R := map (fun m => dec m 0) [
   (-28); (-27); (-26); (-25); (-24); (-23); (-22); (-21); (-20); (-19); (-18); (-17); (-16);
   (-15); (-14); (-13); (-12); (-11); (-10)]%Z.
Definition ice_specific_heat_capacity_y : list R := map (fun v => v * kilocalorie) (map (fun m => dec m 3) [
   452; 454; 455; 457; 459; 461; 463; 466; 467; 468; 470; 472; 474; 476; 478; 480; 481; 483;
   485]%Z).

(** _air_specific_heat_capacity_data, laws.py:38-47. *)
Definition air_specific_heat_capacity_x : list R := map (fun m => dec m 0) [
   (-50); (-45); (-40); (-35); (-30); (-25); (-20); (-15); (-10); (-5); 0; 10; 15; 20; 30; 40;
   50; 60; 70; 80; 90; 100; 110; 120; 130; 140; 150; 160; 170; 180; 190; 200; 250; 300; 350;
   400; 450; 500; 550]%Z.
Definition air_specific_heat_capacity_y : list R := map (fun m => dec m 0) [
   1013; 1013; 1013; 1013; 1013; 1011; 1009; 1009; 1009; 1007; 1005; 1005; 1005; 1005; 1005;
   1005; 1005; 1005; 1009; 1009; 1009; 1009; 1009; 1009; 1011; 1013; 1015; 1017; 1020; 1022;
   1024; 1026; 1037; 1047; 1058; 1068; 1081; 1093; 1104]%Z.

(** _vaporization_specific_heat_data, laws.py:50-55. *)
Definition vaporization_specific_heat_x : list R := map (fun m => dec m 2) [
   0; 1000; 2000; 3000; 5000; 7000; 9000; 10000; 12000; 15000; 18000; 20000; 22000; 25000;
   30000; 35000; 37000; 37400; 37415]%Z.
Definition vaporization_specific_heat_y : list R := map (fun m => dec m 0) [
   2500; 2470; 2450; 2400; 2380; 2320; 2280; 2260; 2200; 2110; 2010; 1940; 1860; 1700; 1400;
   890; 440; 110; 0]%Z.

(** _sublimation_specific_heat_data, laws.py:58-67, 69. *)
Definition sublimation_specific_heat_x : list R := map (fun m => dec m 0) [
   (-39); (-38); (-37); (-36); (-35); (-34); (-33); (-32); (-31); (-30); (-29); (-28); (-27);
   (-26); (-25); (-24); (-23); (-22); (-21); (-20); (-19); (-18); (-17); (-16); (-15); (-14);
   (-13); (-12); (-11); (-10); (-9); (-8); (-7); (-6); (-5); (-4); (-3); (-2); (-1); 0]%Z.
Definition sublimation_specific_heat_y : list R := map (fun v => v * kilocalorie) (map (fun m => dec m 1) [
   6984; 6978; 6973; 6968; 6962; 6956; 6951; 6945; 6940; 6934; 6929; 6923; 6918; 6912; 6906;
   6900; 6895; 6889; 6886; 6881; 6876; 6870; 6865; 6859; 6853; 6847; 6842; 6836; 6831; 6825;
   6819; 6814; 6808; 6803; 6797; 6791; 6785; 6780; 6776; 6769]%Z).

(** The line through two points; a part of the function of make_interp_spline (scipy). *)
Definition line (p q : R * R) (x : R) : R := snd p + (snd q - snd p) * ((x - fst p) / (fst q - fst p)).

(** The function of make_interp_spline(x, y, 1) of scipy, laws.py:73, for a table with the first
    row [p] and the other rows [t].  External: modelled by its documentation (a piecewise linear
    function, continued by the first and the last piece). *)
Fixpoint spline1 (p : R * R) (t : list (R * R)) (x : R) : R :=
  match t with
  | [] => snd p
  | q :: r => match r with
              | [] => line p q x
              | _ => if Rltb x (fst q) then line p q x else spline1 q r x
              end
  end.

(** np.any(x[1:] <= x[:-1]), as checked by make_interp_spline. *)
Fixpoint ascendingb (xs : list R) : bool :=
  match xs with
  | [] => true
  | x :: r => match r with [] => true | y :: _ => Rltb x y && ascendingb r end
  end.

(** LinearLaw, laws.py:71-76: what the object gives when it is called.  Simplification: a table
    with one row raises here. *)
Definition linear_law (xs ys : list R) : res (R -> R) :=
  if negb (Nat.eqb (List.length xs) (List.length ys)) then Raise EValueError
  else if negb (ascendingb xs) then Raise EValueError
  else match combine xs ys with
       | [] => Raise EIndexError
       | [_] => Raise EValueError
       | p :: t => Ok (spline1 p t)
       end.

(** _cubic, laws.py:78-79; the parameters are a list, of another length: TypeError. *)
Definition cubic (x : R) (ps : list R) : res R :=
  match ps with
  | [a; b; c; d] => Ok (a * x ^ 3 + b * x ^ 2 + c * x + d)
  | _ => Raise ETypeError
  end.

(** _quadro, laws.py:81-82. *)
Definition quadro (x : R) (ps : list R) : res R :=
  match ps with
  | [a; b; c; d; e] => Ok (a * x ^ 4 + b * x ^ 3 + c * x ^ 2 + d * x + e)
  | _ => Raise ETypeError
  end.

(** FuncLaw, laws.py:84-93; [fit] stands for curve_fit of scipy (external). *)
Definition func_law (fit : (R -> list R -> res R) -> list R -> list R -> res (list R))
  (func : R -> list R -> res R) (xs ys : list R) : res (R -> res R) :=
  do popt <- fit func xs ys;
  Ok (fun x => func x popt).

(** ConstLaw, laws.py:95-100. *)
Definition const_law (constant : R) : R -> R := fun _ => constant.

(* ---------------------------------------------------------------- *)
(** ** cpp/src/swim.cpp *)

(** a[i] += v; writing outside of the array is undefined behaviour in C, here an exception. *)
Definition add_at (a : list R) (i : nat) (v : R) : res (list R) :=
  match nth_error a i with
  | Some x => Ok (list_set a i (x + v))
  | None => Raise EIndexError
  end.

(** The loop of hi, swim.cpp:16-21, from [i], [k] passes. *)
Fixpoint hi_loop (k i : nat) (a1 a2 a3 : list R) : res (list R * list R * list R) :=
  match k with
  | O => Ok (a1, a2, a3)
  | S k =>
      do b1 <- add_at a1 i 1;
      do b2 <- add_at a2 i 2;
      do b3 <- add_at a3 i 3;
      hi_loop k (S i) b1 b2 b3
  end.

(** hi, swim.cpp:9-23: the length of the first array is the number of passes, the other two
    lengths are not looked at. *)
Definition hi (a1 a2 a3 : list R) : res (list R * list R * list R) := hi_loop (List.length a1) 0 a1 a2 a3.

(* ---------------------------------------------------------------- *)
(** ** smoothing.py *)

(** Smoothing.name_of_iteration, smoothing.py:35-40. *)
Definition name_of_iteration (i : nat) : str :=
  let iteration_name := nat_str i in
  py_to (lit "000") (- Z.of_nat (List.length iteration_name)) ++ iteration_name.

(** The name of the stored file, smoothing.py:79-80. *)
Definition iteration_file (name : str) (i : nat) : str :=
  name ++ lit "_smoothing_" ++ name_of_iteration i ++ lit ".dat".
