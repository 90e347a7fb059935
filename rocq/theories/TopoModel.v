(** Model of smrf/data/load_topo.py: the images, the spacing and the centre of the model domain.
    Numbers are exact rationals, [None] is NaN.  An image is a function of row and column.
    The slope, aspect and view factors (topocalc) and the conversion to latitude and longitude (utm) are other libraries' and not
    modelled. *)
From Coq Require Import List ZArith Bool Arith QArith Qcanon.
From Verif Require Import Num WinsModel LoadModel.
Import ListNotations.

Definition image := (nat -> nat -> num)%type.

(** IMAGES, load_topo.py 25 *)
Inductive name := Dem | Mask | VegType | VegHeight | VegK | VegTau.
Definition IMAGES : list name := [Dem; Mask; VegType; VegHeight; VegK; VegTau].
Definition name_eqb (a b : name) : bool :=
  match a, b with
  | Dem, Dem | Mask, Mask | VegType, VegType | VegHeight, VegHeight | VegK, VegK | VegTau, VegTau => true
  | _, _ => false
  end.

(** The netCDF file: which of the variables it has.  [f_zone]: attribute utm_zone_number of the variable projection, [None] if
    there is no variable projection (that the attribute exists is assumed). *)
Record topo_file := mkFile {
  f_zone : option Z;
  f_x : list Qc;
  f_y : list Qc;
  f_image : name -> option image
}.

(** astype(int), 108-109; what a NaN becomes depends on the machine, [nan_int] *)
Definition astype_int (nan_int : Z) (v : num) : num :=
  match v with
  | Some x => Some (Q2Qc (inject_Z (trunc (this x))))
  | None => Some (Q2Qc (inject_Z nan_int))
  end.
Definition read (nan_int : Z) (v_smrf : name) (im : image) : image :=
  match v_smrf with VegType => fun i j => astype_int nan_int (im i j) | _ => im end.

(** readImages, 96-113: [result] is a local variable of the function, kept from one round of the loop to the next.  [Err]:
    UnboundLocalError *)
Fixpoint readImages (nan_int : Z) (f : topo_file) (names : list name) (result : option image) (self : name -> option image)
  : res (name -> option image) :=
  match names with
  | [] => Ok self
  | v :: r =>
      let result := match f_image f v with Some im => Some (read nan_int v im) | None => result end in
      match result with
      | None => Err UnboundLocalError
      | Some im => readImages nan_int f r result (fun w => if name_eqb w v then Some im else self w)
      end
  end.

(** ndarray.mean; NaN for an empty array *)
Fixpoint sum (l : list Qc) : Qc := match l with [] => 0%Qc | x :: r => (x + sum r)%Qc end.
Definition mean (l : list Qc) : num :=
  match l with [] => None | _ => Some (sum l / Q2Qc (inject_Z (Z.of_nat (length l))))%Qc end.
(** np.diff *)
Fixpoint diff (l : list Qc) : list Qc :=
  match l with x :: ((y :: _) as r) => (y - x)%Qc :: diff r | _ => [] end.
Definition nabs (v : num) : num := match v with Some x => Some (if Qclt_le_dec x 0 then - x else x)%Qc | None => None end.

(** get_center, 115-146, with a mask: the rows and columns of the cells that are 1, in the order of np.argwhere *)
Definition is_one (v : num) : bool := match v with Some x => Qceqb x 1%Qc | None => false end.
Definition argwhere (ny nx : nat) (m : image) : list (nat * nat) :=
  filter (fun c => is_one (m (fst c) (snd c))) (list_prod (seq 0 ny) (seq 0 nx)).
Definition get_center (x y : list Qc) (m : image) : num * num :=
  let mask_id := argwhere (length y) (length x) m in
  (mean (map (fun c => nth (snd c) x 0%Qc) mask_id), mean (map (fun c => nth (fst c) y 0%Qc) mask_id)).

Record topo := mkTopo {
  images : name -> option image;
  nx : nat; ny : nat;
  dx : num; dy : num;
  cx : num; cy : num;
  zone_number : Z
}.

(** readNetCDF, 39-94.  The mask of the centre is read from the file again (74, 137): a KeyError without it.  [to_latlon cx cy]: whether
    utm accepts the centre (83-87); its exception is a ValueError. *)
Definition readNetCDF (nan_int : Z) (to_latlon : num -> num -> Z -> bool) (f : topo_file) : res topo :=
  match f_zone f with
  | None => Err PlainException                                    (* IOError, 53-54 *)
  | Some zone =>
      bind (readImages nan_int f IMAGES None (fun _ => None)) (fun ims =>
      match f_image f Mask with
      | None => Err KeyError
      | Some m =>
          let (cx, cy) := get_center (f_x f) (f_y f) m in
          if to_latlon cx cy zone then
            Ok (mkTopo ims (length (f_x f)) (length (f_y f)) (mean (diff (f_x f))) (nabs (mean (diff (f_y f)))) cx cy zone)
          else Err ValueError
      end)
  end.
