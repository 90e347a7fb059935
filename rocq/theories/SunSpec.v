(** What the sun angle functions should compute, stated without the model: directions in space, places on the
    earth, the sun's orbit, and the series of the almanac.  Angles are in degrees unless said otherwise. *)
From Coq Require Import Reals ZArith.
Local Open Scope R_scope.

(** ** directions: x to the meridian of Greenwich on the equator, y to 90 degrees east, z to the north pole *)
Definition vec : Type := R * R * R.
Definition dot (a b : vec) : R :=
  let '(a1, a2, a3) := a in let '(b1, b2, b3) := b in a1 * b1 + a2 * b2 + a3 * b3.
(** [mix p a q b s c]: p times a plus q times b plus s times c *)
Definition mix (p : R) (a : vec) (q : R) (b : vec) (s : R) (c : vec) : vec :=
  let '(a1, a2, a3) := a in let '(b1, b2, b3) := b in let '(c1, c2, c3) := c in
  (p * a1 + q * b1 + s * c1, p * a2 + q * b2 + s * c2, p * a3 + q * b3 + s * c3).
(** direction of the point of the sky above latitude b and longitude l (radians) *)
Definition above (b l : R) : vec := (cos b * cos l, cos b * sin l, sin b).
(** at a place: the directions of the zenith, of the south point and of the east point of the horizon *)
Definition zenith (b l : R) : vec := above b l.
Definition southward (b l : R) : vec := (sin b * cos l, sin b * sin l, - cos b).
Definition eastward (l : R) : vec := (- sin l, cos l, 0).
(** the sun stands at zenith cosine [mu] and at azimuth [a] (radians from south, positive toward east) *)
Definition seen_at (b l : R) (sun : vec) (mu a : R) : Prop :=
  sun = mix mu (zenith b l) (sqrt (1 - mu * mu) * cos a) (southward b l) (sqrt (1 - mu * mu) * sin a) (eastward l).

(** ** angles *)
Definition rad (x : R) : R := x * PI / 180.
(** equal up to whole turns *)
Definition same_angle (a b : R) : Prop := exists k : Z, a = b + 360 * IZR k.

(** ** the sun's orbit *)
(** E solves Kepler's equation for mean anomaly M and eccentricity e, up to [tol] (radians) *)
Definition kepler_within (tol e M E : R) : Prop := Rabs (E - e * sin E - M) <= tol.
(** the point of the ellipse of eccentricity [e] with eccentric anomaly [E], seen from the focus: distance
    [r], direction [v] from perihelion (both in radians) *)
Definition on_orbit (e E r v : R) : Prop :=
  r = 1 - e * cos E /\ r * cos v = cos E - e /\ r * sin v = sqrt (1 - e * e) * sin E.
(** right ascension [a] and declination [d] (radians) of the point of the ecliptic at longitude [l] when the
    obliquity is [o] *)
Definition equatorial (l o a d : R) : Prop :=
  above d a = (cos l, sin l * cos o, sin l * sin o).

(** ** the almanac's series: [D] days since 1899-12-31 12:00, [T] the same in centuries of 36525 days *)
Section series.
Variable T : R.
Let D := 36525 * T.
Definition mean_longitude := 279.69668 + 0.9856473354 * D + 0.000303 * T ^ 2.
Definition mean_anomaly := 358.47583 + 0.985600267 * D - 0.00015 * T ^ 2 - 0.000003 * T ^ 3.
Definition eccentricity := 0.01675104 - 0.0000418 * T - 0.000000126 * T ^ 2.
Definition mean_obliquity := 23.452294 - 0.0130125 * T - 0.00000164 * T ^ 2 + 0.000000503 * T ^ 3.
Definition mean_ascension := 279.6909832 + 0.98564734 * D + 0.00038708 * T ^ 2.
Definition moon_anomaly := 296.104608 + 477198.8491083 * T + 0.00919167 * T ^ 2 + 0.000014388 * T ^ 3.
Definition moon_elongation := 350.737486 + 445267.1142167 * T + 0.001436 * T ^ 2.
Definition moon_node := 259.183275 - 1934.142008 * T + 0.0020778 * T ^ 2.
Definition moon_longitude := 270.434164 + 481267.8831417 * T - 0.0011333 * T ^ 2.
(** in seconds of arc *)
Definition moon_pull :=
  6.454 * sin (rad moon_elongation) + 0.013 * sin (3 * rad moon_elongation)
  + 0.177 * sin (rad moon_elongation + rad moon_anomaly) - 0.424 * sin (rad moon_elongation - rad moon_anomaly).
Definition nutation :=
  0.017 * T * sin (rad moon_node) - 17.234 * sin (rad moon_node) + 0.209 * sin (2 * rad moon_node)
  - 0.204 * sin (2 * rad moon_longitude) - 1.257 * sin (2 * rad mean_longitude) + 0.127 * sin (rad moon_anomaly).
Definition nutation_obliquity :=
  9.214 * cos (rad moon_node) + 0.546 * cos (2 * rad mean_longitude) - 0.09 * cos (2 * rad moon_node)
  + 0.088 * cos (2 * rad moon_longitude).
(** the amplitude of the second term is a number of seconds [s]: it should be 1.882 - 0.016 T *)
Definition long_period (s : R) :=
  0.266 * sin (rad (31.8 + 119 * T)) + s * sin (rad (57.24 + 150.27 * T)) + 0.202 * sin (rad (315.6 + 893.3 * T))
  + 1.089 * T ^ 2 + 6.4 * sin (rad (231.19 + 20.2 * T)).
Definition obliquity := mean_obliquity + nutation_obliquity / 3600.
(** apparent longitude of the sun at true anomaly [v] and distance [r] *)
Definition apparent_longitude (s v r : R) :=
  mean_longitude + (v - mean_anomaly) + (moon_pull + nutation + long_period s - 20.47 / r) / 3600.
End series.

(** ** time *)
Definition clock_time (h m s : Z) : Prop := (0 <= h <= 23)%Z /\ (0 <= m <= 59)%Z /\ (0 <= s <= 59)%Z.
Definition day_fraction (h m s : Z) : R := (3600 * IZR h + 60 * IZR m + IZR s) / 86400.
(** centuries of 36525 days from 1899-12-31 12:00 to the time [f] (a fraction of a day) of the day that is
    [k] days after 1900-01-01 *)
Definition centuries_since (k : Z) (f : R) : R := (IZR k + 1 / 2 + f) / 36525.
