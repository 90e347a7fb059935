(** The solar spectrum: smrf/envphys/solar/irradiance.py 49-255 (solint, solar_data), the wavelength bands of
    smrf/envphys/solar/toporad.py 12-23 (check_wavelengths) and the irradiance used by stoporad, 26-90.

    The interpolation is scipy's Akima1DInterpolator (requirements.txt: scipy 1.4 to 1.6), the integral scipy's quad; both are
    external.  The interpolant is modelled by the formulas of scipy's source, over the rationals, and quad by the exact
    integral; rounding and quad's tolerance of 1.49e-5 are not modelled. *)
From Coq Require Import List QArith Qreals Reals Qabs Qminmax.
From Verif Require Import RNum WinsModel SunModel SolarModel.
Import ListNotations.

(** ** solar_data, irradiance.py 84-255: wavelengths in micrometers, and the share of the solar constant per micrometer *)
Definition solar_data : list (Q * Q) := Eval cbv in
  ([
   (0.00e0, 0.0000000000000000e0); (1.20e-1, 7.2064702602003287e-5); (1.40e-1, 2.1619410780600986e-5); (1.50e-1, 5.0445291821402301e-5);
   (1.60e-1, 1.6574881598460755e-4); (1.70e-1, 4.5400762639262068e-4); (1.80e-1, 9.0080878252504105e-4); (1.90e-1, 1.9529534405142891e-3);
   (2.00e-1, 7.7109231784143517e-3); (2.10e-1, 1.6502816895858752e-2); (2.20e-1, 4.1437203996151890e-2); (2.25e-1, 4.6769991988700132e-2);
   (2.30e-1, 4.8067156635536191e-2); (2.35e-1, 4.2734368642987949e-2); (2.40e-1, 4.5400762639262071e-2); (2.45e-1, 5.2102779981248376e-2);
   (2.50e-1, 5.0733550631810313e-2); (2.55e-1, 7.4947290706083422e-2); (2.60e-1, 9.3684113382604272e-2); (2.65e-1, 1.3331969981370607e-1);
   (2.70e-1, 1.6719011003664763e-1); (2.75e-1, 1.4701199330808671e-1); (2.80e-1, 1.5998363977644729e-1); (2.85e-1, 2.2700381319631035e-1);
   (2.90e-1, 3.4735186654165584e-1); (2.95e-1, 4.2085786319569921e-1); (3.00e-1, 3.7041257137429690e-1); (3.05e-1, 4.3455015669007980e-1);
   (3.10e-1, 4.9652580092780263e-1); (3.15e-1, 5.5057432787930508e-1); (3.20e-1, 5.9813703159662727e-1); (3.25e-1, 7.0263085036953205e-1);
   (3.30e-1, 7.6316520055521482e-1); (3.35e-1, 7.7901943512765555e-1); (3.40e-1, 7.7397490594551530e-1); (3.45e-1, 7.7037167081541515e-1);
   (3.50e-1, 7.8766719943989590e-1); (3.55e-1, 7.8046072917969557e-1); (3.60e-1, 7.6965102378939508e-1); (3.65e-1, 8.1577243345467720e-1);
   (3.70e-1, 8.5108413772965880e-1); (3.75e-1, 8.3378860910517805e-1); (3.80e-1, 8.0712466914243679e-1); (3.85e-1, 7.9127043456999609e-1);
   (3.90e-1, 7.9127043456999609e-1); (3.95e-1, 8.5684931393781909e-1); (4.00e-1, 1.0298046001826270e0); (4.05e-1, 1.1847437107769340e0);
   (4.10e-1, 1.2618529425610776e0); (4.15e-1, 1.2784278241595383e0); (4.20e-1, 1.2589703544569974e0); (4.25e-1, 1.2200554150519156e0);
   (4.30e-1, 1.1811404756468339e0); (4.35e-1, 1.1984360042713147e0); (4.40e-1, 1.3043711170962595e0); (4.45e-1, 1.3850835840105032e0);
   (4.50e-1, 1.4456179341961859e0); (4.55e-1, 1.4823709325232076e0); (4.60e-1, 1.4888567557573879e0); (4.65e-1, 1.4758851092890273e0);
   (4.70e-1, 1.4650754038987267e0); (4.75e-1, 1.4730025211849472e0); (4.80e-1, 1.4946219319655481e0); (4.85e-1, 1.4239985234155849e0);
   (4.90e-1, 1.4052617007390641e0); (4.95e-1, 1.4124681709992644e0); (5.00e-1, 1.3994965245309039e0); (5.05e-1, 1.3836422899584631e0);
   (5.10e-1, 1.3562577029697018e0); (5.15e-1, 1.3209459986947202e0); (5.20e-1, 1.3209459986947202e0); (5.25e-1, 1.3346382921891008e0);
   (5.30e-1, 1.3274318219289006e0); (5.35e-1, 1.3101362933044197e0); (5.40e-1, 1.2849136473937186e0); (5.45e-1, 1.2640148836391377e0);
   (5.50e-1, 1.2431161198845568e0); (5.55e-1, 1.2395128847544565e0); (5.60e-1, 1.2214967091039557e0); (5.65e-1, 1.2287031793641560e0);
   (5.70e-1, 1.2337477085462963e0); (5.75e-1, 1.2387922377284365e0); (5.80e-1, 1.2359096496243563e0); (5.85e-1, 1.2337477085462963e0);
   (5.90e-1, 1.2250999442340559e0); (5.95e-1, 1.2121282977656953e0); (6.00e-1, 1.2005979453493748e0); (6.05e-1, 1.1869056518549941e0);
   (6.10e-1, 1.1782578875427537e0); (6.20e-1, 1.1544765356840926e0); (6.30e-1, 1.1314158308514516e0); (6.40e-1, 1.1126790081749307e0);
   (6.50e-1, 1.0888976563162696e0); (6.60e-1, 1.0708814806657688e0); (6.70e-1, 1.0492620698851678e0); (6.80e-1, 1.0283633061305869e0);
   (6.90e-1, 1.0103471304800861e0); (7.00e-1, 9.8656577862142496e-1); (7.10e-1, 9.6854960297092417e-1); (7.20e-1, 9.4693019219032319e-1);
   (7.30e-1, 9.2963466356584240e-1); (7.40e-1, 9.0801525278524139e-1); (7.50e-1, 8.8999907713474059e-1); (8.00e-1, 7.9775625780417640e-1);
   (8.50e-1, 7.1199926170779244e-1); (9.00e-1, 6.4065520613180922e-1); (9.50e-1, 6.0174026672672744e-1); (1.00e0, 5.3760268141094450e-1);
   (1.10e0, 4.2662303940385946e-1); (1.20e0, 3.4879316059369590e-1); (1.30e0, 2.8537622230393302e-1); (1.40e0, 2.4213740074273104e-1);
   (1.50e0, 2.0682569646774943e-1); (1.60e0, 1.7583787434888801e-1); (1.70e0, 1.4557069925604664e-1); (1.80e0, 1.1458287713718522e-1);
   (1.90e0, 9.0801525278524142e-2); (2.00e0, 7.4226643680063386e-2); (2.10e0, 6.4858232341802959e-2); (2.20e0, 5.6931115055582595e-2);
   (2.30e0, 4.9003997769362232e-2); (2.40e0, 4.6121409665282103e-2); (2.50e0, 3.8914939405081775e-2); (2.60e0, 3.4591057248961578e-2);
   (2.70e0, 3.0987822118861412e-2); (2.80e0, 2.8105234014781281e-2); (2.90e0, 2.5222645910701150e-2); (3.00e0, 2.2340057806621019e-2);
   (3.10e0, 1.8736822676520856e-2); (3.20e0, 1.6286622788052742e-2); (3.30e0, 1.3836422899584630e-2); (3.40e0, 1.1962740631932545e-2);
   (3.50e0, 1.0521446579892480e-2); (3.60e0, 9.7287348512704438e-3); (3.70e0, 8.8639584200464042e-3); (3.80e0, 7.9991819888223649e-3);
   (3.90e0, 7.4226643680063384e-3); (4.00e0, 6.8461467471903120e-3); (4.10e0, 6.2696291263742857e-3); (4.20e0, 5.6210468029562563e-3);
   (4.30e0, 5.1165938847422333e-3); (4.40e0, 4.6842056691302139e-3); (4.50e0, 4.2518174535181938e-3); (4.60e0, 3.8194292379061740e-3);
   (4.70e0, 3.4591057248961576e-3); (4.80e0, 3.2429116170901479e-3); (4.90e0, 2.9546528066821346e-3); (5.00e0, 2.7600781096567258e-3);
   (6.00e0, 1.2611322955350576e-3); (7.00e0, 7.1344055575983254e-4); (8.00e0, 4.3238821561201970e-4); (9.00e0, 2.7384586988761247e-4);
   (1.00e1, 1.8016175650500822e-4); (1.10e1, 1.2250999442340559e-4); (1.20e1, 8.6477643122403945e-5); (1.30e1, 6.2696291263742856e-5);
   (1.40e1, 3.9635586431101808e-5); (1.50e1, 3.5311704274981611e-5); (1.60e1, 2.7384586988761248e-5); (1.70e1, 2.2340057806621018e-5);
   (1.80e1, 1.7295528624480788e-5); (1.90e1, 1.4412940520400656e-5); (2.00e1, 1.1530352416320527e-5); (2.50e1, 4.3959468587222005e-6);
   (3.00e1, 2.1619410780600985e-6); (3.50e1, 1.1530352416320526e-6); (4.00e1, 6.7740820445883089e-7); (5.00e1, 2.7384586988761249e-7);
   (6.00e1, 1.3692293494380625e-7); (8.00e1, 5.0445291821402299e-8); (1.00e2, 2.1619410780600986e-8); (1.00e3, 0.0000000000000000e0)
  ])%Q.

(** ** Akima1DInterpolator(wave, val), irradiance.py 67 *)
Section Akima.
Local Open Scope Q_scope.
(** np.diff(y) / np.diff(x) *)
Fixpoint secants (tbl : list (Q * Q)) : list Q :=
  match tbl with
  | (x, y) :: ((x', y') :: _) as r => Qred ((y' - y) / (x' - x)) :: secants r
  | _ => []
  end.
(** two slopes more in front, and after: m[1] = 2 m[2] - m[3], m[0] = 2 m[1] - m[2], and the same from the end *)
Definition in_front (m : list Q) : list Q :=
  match m with
  | m2 :: m3 :: _ => let m1 := Qred (2 * m2 - m3) in Qred (2 * m1 - m2) :: m1 :: m
  | _ => m
  end.
Definition extended (m : list Q) : list Q := rev (in_front (rev (in_front m))).
(** f12: the sums of the differences of slopes, over windows of four slopes *)
Fixpoint f12s (m : list Q) : list Q :=
  match m with
  | a :: ((b :: c :: d :: _) as r) => Qred (Qabs (d - c) + Qabs (b - a)) :: f12s r
  | _ => []
  end.
Definition maximum (l : list Q) : Q := fold_right Qmax 0 l.
(** the slope at a point from the four slopes around it: weighted, or the mean of the outer two where all weights are small *)
Definition slope (small a b c d : Q) : Q :=
  let f1 := Qabs (d - c) in
  let f2 := Qabs (b - a) in
  if Qle_bool (f1 + f2) small then Qred ((d + a) / 2) else Qred ((f1 * b + f2 * c) / (f1 + f2)).
Fixpoint slopes (small : Q) (m : list Q) : list Q :=
  match m with
  | a :: ((b :: c :: d :: _) as r) => slope small a b c d :: slopes small r
  | _ => []
  end.
Definition akima_slopes (tbl : list (Q * Q)) : list Q :=
  let m := extended (secants tbl) in
  slopes (Qred (1e-9 * maximum (f12s m))) m.
(** CubicHermiteSpline: from x0 to x1, c0 (x-x0)^3 + c1 (x-x0)^2 + c2 (x-x0) + c3 *)
Record piece := mkPiece { x0 : Q; x1 : Q; c0 : Q; c1 : Q; c2 : Q; c3 : Q }.
Definition hermite (x y t x' y' t' : Q) : piece :=
  let h := x' - x in
  let s := (y' - y) / h in
  let u := (t + t' - 2 * s) / h in
  mkPiece x x' (Qred (u / h)) (Qred ((s - t) / h - u)) t y.
Fixpoint pieces (tbl : list (Q * Q)) (ts : list Q) : list piece :=
  match tbl, ts with
  | (x, y) :: (((x', y') :: _) as r), t :: ((t' :: _) as ts') => hermite x y t x' y' t' :: pieces r ts'
  | _, _ => []
  end.
Definition akima (tbl : list (Q * Q)) : list piece := pieces tbl (akima_slopes tbl).
End Akima.

Local Open Scope R_scope.
(** value of a piece, and its integral from x0 *)
Definition cubic (p : piece) (x : R) : R :=
  let d := x - Q2R (x0 p) in Q2R (c0 p) * d ^ 3 + Q2R (c1 p) * d ^ 2 + Q2R (c2 p) * d + Q2R (c3 p).
Definition quartic (p : piece) (x : R) : R :=
  let d := x - Q2R (x0 p) in Q2R (c0 p) * d ^ 4 / 4 + Q2R (c1 p) * d ^ 3 / 3 + Q2R (c2 p) * d ^ 2 / 2 + Q2R (c3 p) * d.
(** PPoly.__call__: the piece an x belongs to; the first and the last one go on outside *)
Fixpoint value (l : list piece) (x : R) : R :=
  match l with
  | [] => 0
  | p :: r => match r with [] => cubic p x | _ => if rltb x (Q2R (x1 p)) then cubic p x else value r x end
  end.
(** without extrapolation: NaN outside *)
Fixpoint last_x (l : list piece) : Q := match l with [] => 0%Q | p :: r => match r with [] => x1 p | _ => last_x r end end.
Definition first_x (l : list piece) : Q := match l with [] => 0%Q | p :: _ => x0 p end.
Definition interpolant (l : list piece) (x : R) : rnum :=
  if rltb x (Q2R (first_x l)) || rltb (Q2R (last_x l)) x then None else Some (value l x).
(** the integral from the first x *)
Fixpoint primitive (l : list piece) (acc : R) (x : R) : R :=
  match l with
  | [] => acc
  | p :: r => match r with
              | [] => acc + quartic p x
              | _ => if rltb x (Q2R (x1 p)) then acc + quartic p x else primitive r (acc + quartic p (Q2R (x1 p))) x
              end
  end.
(** quad(c, a, b), irradiance.py 72; NaN if the range leaves the table *)
Definition quad (l : list piece) (a b : R) : rnum :=
  match interpolant l a, interpolant l b with
  | Some _, Some _ => Some (primitive l 0 b - primitive l 0 a)
  | _, _ => None
  end.

(** ** solint, irradiance.py 49-76 *)
Definition spectrum : list piece := Eval vm_compute in akima solar_data.
(** constants.py 9 *)
Definition SOLAR_CONSTANT : R := 1368.
Definition solint (a b : R) : rnum := rlift (fun i => i * SOLAR_CONSTANT) (quad spectrum a b).

(** ** check_wavelengths, toporad.py 12-23; constants.py 1-8 *)
Definition VISIBLE_MIN : R := 0.28.
Definition VISIBLE_MAX : R := 0.7.
Definition IR_MIN : R := 0.7.
Definition IR_MAX : R := 2.8.
Definition VISIBLE_WAVELENGTHS : list R := [VISIBLE_MIN; VISIBLE_MAX].
Definition IR_WAVELENGTHS : list R := [IR_MIN; IR_MAX].
Inductive band := Vis | Ir.
Definition check_wavelengths (w : list R) : res band :=
  match w with
  | [] => Err IndexError
  | a :: r =>
      let second := match r with [] => Err IndexError | b :: _ => Ok b end in
      bind (if rleb VISIBLE_MIN a then bind second (fun b => Ok (rleb b VISIBLE_MAX)) else Ok false) (fun vis =>
      if vis then Ok Vis else
      bind (if rleb IR_MIN a then bind second (fun b => Ok (rleb b IR_MAX)) else Ok false) (fun ir =>
      if ir then Ok Ir else Err ValueError))
  end.

(** ** stoporad, toporad.py 26-90, one cell: the irradiance is that of the day, over the bounds of the band.  Where [solint]
    is NaN (see C89_nan: not for the two bands of the model) 0 stands for it. *)
Definition solint_number (a b : R) : R := match solint a b with Some v => v | None => 0 end.
Definition stoporad (fuel : nat) (d : moment) (w : list R)
    (cosz horizon illum svf tcf tau tau_elevation omega g R0 elevation albedo : R) : option (res (R * R)) :=
  match check_wavelengths w with
  | Err e => Some (Err e)
  | Ok _ =>
      if rltb cosz 0 then Some (Ok (0, 0))
      else match direct_solar_irradiance solint_number fuel d w with
           | None => None
           | Some (Err e) => Some (Err e)
           | Some (Ok s) => Some (stoporad_cell s cosz horizon illum svf tcf tau tau_elevation omega g R0 elevation albedo)
           end
  end.
