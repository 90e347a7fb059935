(** Numerical bounds on the exponential used for the wet bulb temperature, by repeated squaring. *)
From Coq Require Import Reals Lra Lia.
From Verif Require Import ExpBounds.
Local Open Scope R_scope.

Lemma ln_boil_273 : 1.36604921 <= exp 0.311926.
Proof.
  assert (H0 : 1.00000007436895370483398437 <= exp (0.311926 / 2 ^ 22)) by (apply Rle_trans with (1 + 0.311926 / 2 ^ 22); [lra | apply exp_ineq1_le]).
  assert (H1 : 1.00000014873791294040924388 <= exp (0.311926 / 2 ^ 21)) by (apply (exp_sq_lower _ _ _ _ H0); lra).
  assert (H2 : 1.00000029747584800378523362 <= exp (0.311926 / 2 ^ 20)) by (apply (exp_sq_lower _ _ _ _ H1); lra).
  assert (H3 : 1.00000059495178449945061280 <= exp (0.311926 / 2 ^ 19)) by (apply (exp_sq_lower _ _ _ _ H2); lra).
  assert (H4 : 1.00000118990392296652710467 <= exp (0.311926 / 2 ^ 18)) by (apply (exp_sq_lower _ _ _ _ H3); lra).
  assert (H5 : 1.00000237980926180440010046 <= exp (0.311926 / 2 ^ 17)) by (apply (exp_sq_lower _ _ _ _ H4); lra).
  assert (H6 : 1.00000475962418710092277091 <= exp (0.311926 / 2 ^ 16)) by (apply (exp_sq_lower _ _ _ _ H5); lra).
  assert (H7 : 1.00000951927102822424797793 <= exp (0.311926 / 2 ^ 15)) by (apply (exp_sq_lower _ _ _ _ H6); lra).
  assert (H8 : 1.00001903863267296940474538 <= exp (0.311926 / 2 ^ 14)) by (apply (exp_sq_lower _ _ _ _ H7); lra).
  assert (H9 : 1.00003807762781547286574889 <= exp (0.311926 / 2 ^ 13)) by (apply (exp_sq_lower _ _ _ _ H8); lra).
  assert (H10 : 1.00007615670553668578517066 <= exp (0.311926 / 2 ^ 12)) by (apply (exp_sq_lower _ _ _ _ H9); lra).
  assert (H11 : 1.00015231921091716977180864 <= exp (0.311926 / 2 ^ 11)) by (apply (exp_sq_lower _ _ _ _ H10); lra).
  assert (H12 : 1.00030466162297635397286827 <= exp (0.311926 / 2 ^ 10)) by (apply (exp_sq_lower _ _ _ _ H11); lra).
  assert (H13 : 1.00060941606465722253179152 <= exp (0.311926 / 2 ^ 9)) by (apply (exp_sq_lower _ _ _ _ H12); lra).
  assert (H14 : 1.00121920351725430735961645 <= exp (0.311926 / 2 ^ 8)) by (apply (exp_sq_lower _ _ _ _ H13); lra).
  assert (H15 : 1.00243989349172509999337644 <= exp (0.311926 / 2 ^ 7)) by (apply (exp_sq_lower _ _ _ _ H14); lra).
  assert (H16 : 1.00488574006370116248734272 <= exp (0.311926 / 2 ^ 6)) by (apply (exp_sq_lower _ _ _ _ H15); lra).
  assert (H17 : 1.00979535058337237961396509 <= exp (0.311926 / 2 ^ 5)) by (apply (exp_sq_lower _ _ _ _ H16); lra).
  assert (H18 : 1.01968665005979593284555681 <= exp (0.311926 / 2 ^ 4)) by (apply (exp_sq_lower _ _ _ _ H17); lra).
  assert (H19 : 1.03976086431016872889739713 <= exp (0.311926 / 2 ^ 3)) by (apply (exp_sq_lower _ _ _ _ H18); lra).
  assert (H20 : 1.08110265495102910718448344 <= exp (0.311926 / 2 ^ 2)) by (apply (exp_sq_lower _ _ _ _ H19); lra).
  assert (H21 : 1.16878295054216390052124738 <= exp (0.311926 / 2 ^ 1)) by (apply (exp_sq_lower _ _ _ _ H20); lra).
  assert (H22 : 1.36605358547804634636340179 <= exp (0.311926 / 2 ^ 0)) by (apply (exp_sq_lower _ _ _ _ H21); lra).
  replace (0.311926 / 2 ^ 0) with 0.311926 in H22 by lra. lra.
Qed.

Lemma ln_boil_300 : 1.243834 <= exp 0.218202.
Proof.
  assert (H0 : 1.00000005202341079711914061 <= exp (0.218202 / 2 ^ 22)) by (apply Rle_trans with (1 + 0.218202 / 2 ^ 22); [lra | apply exp_ineq1_le]).
  assert (H1 : 1.00000010404682430067355218 <= exp (0.218202 / 2 ^ 21)) by (apply (exp_sq_lower _ _ _ _ H0); lra).
  assert (H2 : 1.00000020809365942708875141 <= exp (0.218202 / 2 ^ 20)) by (apply (exp_sq_lower _ _ _ _ H1); lra).
  assert (H3 : 1.00000041618736215714859657 <= exp (0.218202 / 2 ^ 19)) by (apply (exp_sq_lower _ _ _ _ H2); lra).
  assert (H4 : 1.00000083237489752621761246 <= exp (0.218202 / 2 ^ 18)) by (apply (exp_sq_lower _ _ _ _ H3); lra).
  assert (H5 : 1.00000166475048790040525669 <= exp (0.218202 / 2 ^ 17)) by (apply (exp_sq_lower _ _ _ _ H4); lra).
  assert (H6 : 1.00000332950374719499747801 <= exp (0.218202 / 2 ^ 16)) by (apply (exp_sq_lower _ _ _ _ H5); lra).
  assert (H7 : 1.00000665901857998519754154 <= exp (0.218202 / 2 ^ 15)) by (apply (exp_sq_lower _ _ _ _ H6); lra).
  assert (H8 : 1.00001331808150249884367115 <= exp (0.218202 / 2 ^ 14)) by (apply (exp_sq_lower _ _ _ _ H7); lra).
  assert (H9 : 1.00002663634037629259454415 <= exp (0.218202 / 2 ^ 13)) by (apply (exp_sq_lower _ _ _ _ H8); lra).
  assert (H10 : 1.00005327339024721383080341 <= exp (0.218202 / 2 ^ 12)) by (apply (exp_sq_lower _ _ _ _ H9); lra).
  assert (H11 : 1.00010654961854853609354451 <= exp (0.218202 / 2 ^ 11)) by (apply (exp_sq_lower _ _ _ _ H10); lra).
  assert (H12 : 1.00021311058991828502563576 <= exp (0.218202 / 2 ^ 10)) by (apply (exp_sq_lower _ _ _ _ H11); lra).
  assert (H13 : 1.00042626659596010537071872 <= exp (0.218202 / 2 ^ 9)) by (apply (exp_sq_lower _ _ _ _ H12); lra).
  assert (H14 : 1.00085271489513104215715779 <= exp (0.218202 / 2 ^ 8)) by (apply (exp_sq_lower _ _ _ _ H13); lra).
  assert (H15 : 1.00170615691295446265853915 <= exp (0.218202 / 2 ^ 7)) by (apply (exp_sq_lower _ _ _ _ H14); lra).
  assert (H16 : 1.00341522479732054761894743 <= exp (0.218202 / 2 ^ 6)) by (apply (exp_sq_lower _ _ _ _ H15); lra).
  assert (H17 : 1.00684211335505732841345765 <= exp (0.218202 / 2 ^ 5)) by (apply (exp_sq_lower _ _ _ _ H16); lra).
  assert (H18 : 1.01373104122527811067794697 <= exp (0.218202 / 2 ^ 4)) by (apply (exp_sq_lower _ _ _ _ H17); lra).
  assert (H19 : 1.02765062394368650835488701 <= exp (0.218202 / 2 ^ 3)) by (apply (exp_sq_lower _ _ _ _ H18); lra).
  assert (H20 : 1.05606580489184818634573290 <= exp (0.218202 / 2 ^ 2)) by (apply (exp_sq_lower _ _ _ _ H19); lra).
  assert (H21 : 1.11527498426186716071368965 <= exp (0.218202 / 2 ^ 1)) by (apply (exp_sq_lower _ _ _ _ H20); lra).
  assert (H22 : 1.24383829052030804301874571 <= exp (0.218202 / 2 ^ 0)) by (apply (exp_sq_lower _ _ _ _ H21); lra).
  replace (0.218202 / 2 ^ 0) with 0.218202 in H22 by lra. lra.
Qed.

Lemma ln_boil_312 : 1.195994 <= exp 0.178982.
Proof.
  assert (H0 : 1.00000004267263412475585937 <= exp (0.178982 / 2 ^ 22)) by (apply Rle_trans with (1 + 0.178982 / 2 ^ 22); [lra | apply exp_ineq1_le]).
  assert (H1 : 1.00000008534527007046542188 <= exp (0.178982 / 2 ^ 21)) by (apply (exp_sq_lower _ _ _ _ H0); lra).
  assert (H2 : 1.00000017069054742474596715 <= exp (0.178982 / 2 ^ 20)) by (apply (exp_sq_lower _ _ _ _ H1); lra).
  assert (H3 : 1.00000034138112398475491445 <= exp (0.178982 / 2 ^ 19)) by (apply (exp_sq_lower _ _ _ _ H2); lra).
  assert (H4 : 1.00000068276236451058164198 <= exp (0.178982 / 2 ^ 18)) by (apply (exp_sq_lower _ _ _ _ H3); lra).
  assert (H5 : 1.00000136552519518560967603 <= exp (0.178982 / 2 ^ 17)) by (apply (exp_sq_lower _ _ _ _ H4); lra).
  assert (H6 : 1.00000273105225503027803875 <= exp (0.178982 / 2 ^ 16)) by (apply (exp_sq_lower _ _ _ _ H5); lra).
  assert (H7 : 1.00000546211196870697578346 <= exp (0.178982 / 2 ^ 15)) by (apply (exp_sq_lower _ _ _ _ H6); lra).
  assert (H8 : 1.00001092425377208111025890 <= exp (0.178982 / 2 ^ 14)) by (apply (exp_sq_lower _ _ _ _ H7); lra).
  assert (H9 : 1.00002184862688348269734616 <= exp (0.178982 / 2 ^ 13)) by (apply (exp_sq_lower _ _ _ _ H8); lra).
  assert (H10 : 1.00004369773112946208833515 <= exp (0.178982 / 2 ^ 12)) by (apply (exp_sq_lower _ _ _ _ H9); lra).
  assert (H11 : 1.00008739737175063003943033 <= exp (0.178982 / 2 ^ 11)) by (apply (exp_sq_lower _ _ _ _ H10); lra).
  assert (H12 : 1.00017480238180184899668629 <= exp (0.178982 / 2 ^ 10)) by (apply (exp_sq_lower _ _ _ _ H11); lra).
  assert (H13 : 1.00034963531947638159276186 <= exp (0.178982 / 2 ^ 9)) by (apply (exp_sq_lower _ _ _ _ H12); lra).
  assert (H14 : 1.00069939288380938853694524 <= exp (0.178982 / 2 ^ 8)) by (apply (exp_sq_lower _ _ _ _ H13); lra).
  assert (H15 : 1.00139927491802470028674477 <= exp (0.178982 / 2 ^ 7)) by (apply (exp_sq_lower _ _ _ _ H14); lra).
  assert (H16 : 1.00280050780634561360519695 <= exp (0.178982 / 2 ^ 6)) by (apply (exp_sq_lower _ _ _ _ H15); lra).
  assert (H17 : 1.00560885845666462993122844 <= exp (0.178982 / 2 ^ 5)) by (apply (exp_sq_lower _ _ _ _ H16); lra).
  assert (H18 : 1.01124917620651615819681307 <= exp (0.178982 / 2 ^ 4)) by (apply (exp_sq_lower _ _ _ _ H17); lra).
  assert (H19 : 1.02262489637835756565707464 <= exp (0.178982 / 2 ^ 3)) by (apply (exp_sq_lower _ _ _ _ H18); lra).
  assert (H20 : 1.04576167869284654860491269 <= exp (0.178982 / 2 ^ 2)) by (apply (exp_sq_lower _ _ _ _ H19); lra).
  assert (H21 : 1.09361748862248042301120044 <= exp (0.178982 / 2 ^ 1)) by (apply (exp_sq_lower _ _ _ _ H20); lra).
  assert (H22 : 1.19599921142094109747285471 <= exp (0.178982 / 2 ^ 0)) by (apply (exp_sq_lower _ _ _ _ H21); lra).
  replace (0.178982 / 2 ^ 0) with 0.178982 in H22 by lra. lra.
Qed.

Lemma ln_boil_323 : 1.154692 <= exp 0.143838.
Proof.
  assert (H0 : 1.00000003429365158081054687 <= exp (0.143838 / 2 ^ 22)) by (apply Rle_trans with (1 + 0.143838 / 2 ^ 22); [lra | apply exp_ineq1_le]).
  assert (H1 : 1.00000006858730433767563248 <= exp (0.143838 / 2 ^ 21)) by (apply (exp_sq_lower _ _ _ _ H0); lra).
  assert (H2 : 1.00000013717461337956958126 <= exp (0.143838 / 2 ^ 20)) by (apply (exp_sq_lower _ _ _ _ H1); lra).
  assert (H3 : 1.00000027434924557601371834 <= exp (0.143838 / 2 ^ 19)) by (apply (exp_sq_lower _ _ _ _ H2); lra).
  assert (H4 : 1.00000054869856641953598480 <= exp (0.143838 / 2 ^ 18)) by (apply (exp_sq_lower _ _ _ _ H3); lra).
  assert (H5 : 1.00000109739743390918876044 <= exp (0.143838 / 2 ^ 17)) by (apply (exp_sq_lower _ _ _ _ H4); lra).
  assert (H6 : 1.00000219479607209950547134 <= exp (0.143838 / 2 ^ 16)) by (apply (exp_sq_lower _ _ _ _ H5); lra).
  assert (H7 : 1.00000438959696132880904609 <= exp (0.143838 / 2 ^ 15)) by (apply (exp_sq_lower _ _ _ _ H6); lra).
  assert (H8 : 1.00000877921319121910099928 <= exp (0.143838 / 2 ^ 14)) by (apply (exp_sq_lower _ _ _ _ H7); lra).
  assert (H9 : 1.00001755850345702245887402 <= exp (0.143838 / 2 ^ 13)) by (apply (exp_sq_lower _ _ _ _ H8); lra).
  assert (H10 : 1.00003511731521508856801767 <= exp (0.143838 / 2 ^ 12)) by (apply (exp_sq_lower _ _ _ _ H9); lra).
  assert (H11 : 1.00007023586365600505192637 <= exp (0.143838 / 2 ^ 11)) by (apply (exp_sq_lower _ _ _ _ H10); lra).
  assert (H12 : 1.00014047666038855360878407 <= exp (0.143838 / 2 ^ 10)) by (apply (exp_sq_lower _ _ _ _ H11); lra).
  assert (H13 : 1.00028097305446922113859467 <= exp (0.143838 / 2 ^ 9)) by (apply (exp_sq_lower _ _ _ _ H12); lra).
  assert (H14 : 1.00056202505479578004109817 <= exp (0.143838 / 2 ^ 8)) by (apply (exp_sq_lower _ _ _ _ H13); lra).
  assert (H15 : 1.00112436598175377828175410 <= exp (0.143838 / 2 ^ 7)) by (apply (exp_sq_lower _ _ _ _ H14); lra).
  assert (H16 : 1.00224999616236848170118420 <= exp (0.143838 / 2 ^ 6)) by (apply (exp_sq_lower _ _ _ _ H15); lra).
  assert (H17 : 1.00450505480746763629743939 <= exp (0.143838 / 2 ^ 5)) by (apply (exp_sq_lower _ _ _ _ H16); lra).
  assert (H18 : 1.00903040513375355985642740 <= exp (0.143838 / 2 ^ 4)) by (apply (exp_sq_lower _ _ _ _ H17); lra).
  assert (H19 : 1.01814235848438684236213537 <= exp (0.143838 / 2 ^ 3)) by (apply (exp_sq_lower _ _ _ _ H18); lra).
  assert (H20 : 1.03661386214014968796814819 <= exp (0.143838 / 2 ^ 2)) by (apply (exp_sq_lower _ _ _ _ H19); lra).
  assert (H21 : 1.07456829918111726262515598 <= exp (0.143838 / 2 ^ 1)) by (apply (exp_sq_lower _ _ _ _ H20); lra).
  assert (H22 : 1.15469702960499913867010372 <= exp (0.143838 / 2 ^ 0)) by (apply (exp_sq_lower _ _ _ _ H21); lra).
  replace (0.143838 / 2 ^ 0) with 0.143838 in H22 by lra. lra.
Qed.

Lemma exp_y273_low : 18.9 <= exp 2.94283.
Proof.
  assert (H0 : 1.00000070162534713745117187 <= exp (2.94283 / 2 ^ 22)) by (apply Rle_trans with (1 + 2.94283 / 2 ^ 22); [lra | apply exp_ineq1_le]).
  assert (H1 : 1.00000140325118655303008948 <= exp (2.94283 / 2 ^ 21)) by (apply (exp_sq_lower _ _ _ _ H0); lra).
  assert (H2 : 1.00000280650434221995274144 <= exp (2.94283 / 2 ^ 20)) by (apply (exp_sq_lower _ _ _ _ H1); lra).
  assert (H3 : 1.00000561301656090652838232 <= exp (2.94283 / 2 ^ 19)) by (apply (exp_sq_lower _ _ _ _ H2); lra).
  assert (H4 : 1.00001122606462776796977558 <= exp (2.94283 / 2 ^ 18)) by (apply (exp_sq_lower _ _ _ _ H3); lra).
  assert (H5 : 1.00002245225528006296637436 <= exp (2.94283 / 2 ^ 17)) by (apply (exp_sq_lower _ _ _ _ H4); lra).
  assert (H6 : 1.00004490501466389309386406 <= exp (2.94283 / 2 ^ 16)) by (apply (exp_sq_lower _ _ _ _ H5); lra).
  assert (H7 : 1.00008981204578812815218190 <= exp (2.94283 / 2 ^ 15)) by (apply (exp_sq_lower _ _ _ _ H6); lra).
  assert (H8 : 1.00017963215777982495319155 <= exp (2.94283 / 2 ^ 14)) by (apply (exp_sq_lower _ _ _ _ H7); lra).
  assert (H9 : 1.00035929658327175854230955 <= exp (2.94283 / 2 ^ 13)) by (apply (exp_sq_lower _ _ _ _ H8); lra).
  assert (H10 : 1.00071872226057826784433947 <= exp (2.94283 / 2 ^ 12)) by (apply (exp_sq_lower _ _ _ _ H9); lra).
  assert (H11 : 1.00143796108284438642422320 <= exp (2.94283 / 2 ^ 11)) by (apply (exp_sq_lower _ _ _ _ H10); lra).
  assert (H12 : 1.00287798989776454784880351 <= exp (2.94283 / 2 ^ 10)) by (apply (exp_sq_lower _ _ _ _ H11); lra).
  assert (H13 : 1.00576426262138073049018585 <= exp (2.94283 / 2 ^ 9)) by (apply (exp_sq_lower _ _ _ _ H12); lra).
  assert (H14 : 1.01156175196632970803107934 <= exp (2.94283 / 2 ^ 8)) by (apply (exp_sq_lower _ _ _ _ H13); lra).
  assert (H15 : 1.02325717804119034493226785 <= exp (2.94283 / 2 ^ 7)) by (apply (exp_sq_lower _ _ _ _ H14); lra).
  assert (H16 : 1.04705525241282031623417464 <= exp (2.94283 / 2 ^ 6)) by (apply (exp_sq_lower _ _ _ _ H15); lra).
  assert (H17 : 1.09632470160527486466100744 <= exp (2.94283 / 2 ^ 5)) by (apply (exp_sq_lower _ _ _ _ H16); lra).
  assert (H18 : 1.20192785134989497141094655 <= exp (2.94283 / 2 ^ 4)) by (apply (exp_sq_lower _ _ _ _ H17); lra).
  assert (H19 : 1.44463055985057522324975733 <= exp (2.94283 / 2 ^ 3)) by (apply (exp_sq_lower _ _ _ _ H18); lra).
  assert (H20 : 2.08695745445418640219317166 <= exp (2.94283 / 2 ^ 2)) by (apply (exp_sq_lower _ _ _ _ H19); lra).
  assert (H21 : 4.35539141670189751133124837 <= exp (2.94283 / 2 ^ 1)) by (apply (exp_sq_lower _ _ _ _ H20); lra).
  assert (H22 : 18.96943439268056184802042387 <= exp (2.94283 / 2 ^ 0)) by (apply (exp_sq_lower _ _ _ _ H21); lra).
  replace (2.94283 / 2 ^ 0) with 2.94283 in H22 by lra. lra.
Qed.

Lemma exp_y273_high : exp 2.94285 <= 19.
Proof.
  assert (H0 : exp (2.94285 / 2 ^ 22) <= 1.00000070163060779419759445) by (apply exp_upper_small; lra).
  assert (H1 : exp (2.94285 / 2 ^ 21) <= 1.00000140326170787390498257) by (apply (exp_sq_upper _ _ _ _ H0); lra).
  assert (H2 : exp (2.94285 / 2 ^ 20) <= 1.00000280652538489123075034) by (apply (exp_sq_upper _ _ _ _ H1); lra).
  assert (H3 : exp (2.94285 / 2 ^ 19) <= 1.00000561305864636719753956) by (apply (exp_sq_upper _ _ _ _ H2); lra).
  assert (H4 : exp (2.94285 / 2 ^ 18) <= 1.00001122614879916176263669) by (apply (exp_sq_upper _ _ _ _ H3); lra).
  assert (H5 : exp (2.94285 / 2 ^ 17) <= 1.00002245242362474038619448) by (apply (exp_sq_upper _ _ _ _ H4); lra).
  assert (H6 : exp (2.94285 / 2 ^ 16) <= 1.00004490535136080739718919) by (apply (exp_sq_upper _ _ _ _ H5); lra).
  assert (H7 : exp (2.94285 / 2 ^ 15) <= 1.00008981271921219563194515) by (apply (exp_sq_upper _ _ _ _ H6); lra).
  assert (H8 : exp (2.94285 / 2 ^ 14) <= 1.00017963350474892355258468) by (apply (exp_sq_upper _ _ _ _ H7); lra).
  assert (H9 : exp (2.94285 / 2 ^ 13) <= 1.00035929927769387548670989) by (apply (exp_sq_upper _ _ _ _ H8); lra).
  assert (H10 : exp (2.94285 / 2 ^ 12) <= 1.00071872765135870231407068) by (apply (exp_sq_upper _ _ _ _ H9); lra).
  assert (H11 : exp (2.94285 / 2 ^ 11) <= 1.00143797187215423222448570) by (apply (exp_sq_upper _ _ _ _ H10); lra).
  assert (H12 : exp (2.94285 / 2 ^ 10) <= 1.00287801150741357119655657) by (apply (exp_sq_upper _ _ _ _ H11); lra).
  assert (H13 : exp (2.94285 / 2 ^ 9) <= 1.00576430596506394732948763) by (apply (exp_sq_upper _ _ _ _ H12); lra).
  assert (H14 : exp (2.94285 / 2 ^ 8) <= 1.01156183915338676646414590) by (apply (exp_sq_upper _ _ _ _ H13); lra).
  assert (H15 : exp (2.94285 / 2 ^ 7) <= 1.02325735443138232014899742) by (apply (exp_sq_upper _ _ _ _ H14); lra).
  assert (H16 : exp (2.94285 / 2 ^ 6) <= 1.04705561339791157914217869) by (apply (exp_sq_upper _ _ _ _ H15); lra).
  assert (H17 : exp (2.94285 / 2 ^ 5) <= 1.09632545754807687399535748) by (apply (exp_sq_upper _ _ _ _ H16); lra).
  assert (H18 : exp (2.94285 / 2 ^ 4) <= 1.20192950886800010800857168) by (apply (exp_sq_upper _ _ _ _ H17); lra).
  assert (H19 : exp (2.94285 / 2 ^ 3) <= 1.44463454428767195027880304) by (apply (exp_sq_upper _ _ _ _ H18); lra).
  assert (H20 : exp (2.94285 / 2 ^ 2) <= 2.08696896654924960950797377) by (apply (exp_sq_upper _ _ _ _ H19); lra).
  assert (H21 : exp (2.94285 / 2 ^ 1) <= 4.35543946733964293556319472) by (apply (exp_sq_upper _ _ _ _ H20); lra).
  assert (H22 : exp (2.94285 / 2 ^ 0) <= 18.96985295365983258159470965) by (apply (exp_sq_upper _ _ _ _ H21); lra).
  replace (2.94285 / 2 ^ 0) with 2.94285 in H22 by lra. lra.
Qed.

Lemma exp_y300 : 7.09 <= exp 1.96028.
Proof.
  assert (H0 : 1.00000046736717224121093749 <= exp (1.96028 / 2 ^ 22)) by (apply Rle_trans with (1 + 1.96028 / 2 ^ 22); [lra | apply exp_ineq1_le]).
  assert (H1 : 1.00000093473456291449556372 <= exp (1.96028 / 2 ^ 21)) by (apply (exp_sq_lower _ _ _ _ H0); lra).
  assert (H2 : 1.00000186946999955769423438 <= exp (1.96028 / 2 ^ 20)) by (apply (exp_sq_lower _ _ _ _ H1); lra).
  assert (H3 : 1.00000373894349403346771500 <= exp (1.96028 / 2 ^ 19)) by (apply (exp_sq_lower _ _ _ _ H2); lra).
  assert (H4 : 1.00000747790096776538700519 <= exp (1.96028 / 2 ^ 18)) by (apply (exp_sq_lower _ _ _ _ H3); lra).
  assert (H5 : 1.00001495585785453365771688 <= exp (1.96028 / 2 ^ 17)) by (apply (exp_sq_lower _ _ _ _ H4); lra).
  assert (H6 : 1.00002991193938675148044985 <= exp (1.96028 / 2 ^ 16)) by (apply (exp_sq_lower _ _ _ _ H5); lra).
  assert (H7 : 1.00005982477349762083759422 <= exp (1.96028 / 2 ^ 15)) by (apply (exp_sq_lower _ _ _ _ H6); lra).
  assert (H8 : 1.00011965312599876571682498 <= exp (1.96028 / 2 ^ 14)) by (apply (exp_sq_lower _ _ _ _ H7); lra).
  assert (H9 : 1.00023932056886809271015427 <= exp (1.96028 / 2 ^ 13)) by (apply (exp_sq_lower _ _ _ _ H8); lra).
  assert (H10 : 1.00047869841207086876781423 <= exp (1.96028 / 2 ^ 12)) by (apply (exp_sq_lower _ _ _ _ H9); lra).
  assert (H11 : 1.00095762597631145670690568 <= exp (1.96028 / 2 ^ 11)) by (apply (exp_sq_lower _ _ _ _ H10); lra).
  assert (H12 : 1.00191616900013341988445331 <= exp (1.96028 / 2 ^ 10)) by (apply (exp_sq_lower _ _ _ _ H11); lra).
  assert (H13 : 1.00383600970390391207899977 <= exp (1.96028 / 2 ^ 9)) by (apply (exp_sq_lower _ _ _ _ H12); lra).
  assert (H14 : 1.00768673437825626913722075 <= exp (1.96028 / 2 ^ 8)) by (apply (exp_sq_lower _ _ _ _ H13); lra).
  assert (H15 : 1.01543255464191440506689975 <= exp (1.96028 / 2 ^ 7)) by (apply (exp_sq_lower _ _ _ _ H14); lra).
  assert (H16 : 1.03110327302660448398499920 <= exp (1.96028 / 2 ^ 6)) by (apply (exp_sq_lower _ _ _ _ H15); lra).
  assert (H17 : 1.06317395964617647002752530 <= exp (1.96028 / 2 ^ 5)) by (apply (exp_sq_lower _ _ _ _ H16); lra).
  assert (H18 : 1.13033886846972967312116184 <= exp (1.96028 / 2 ^ 4)) by (apply (exp_sq_lower _ _ _ _ H17); lra).
  assert (H19 : 1.27766595757342883818421416 <= exp (1.96028 / 2 ^ 3)) by (apply (exp_sq_lower _ _ _ _ H18); lra).
  assert (H20 : 1.63243029914202685994888488 <= exp (1.96028 / 2 ^ 2)) by (apply (exp_sq_lower _ _ _ _ H19); lra).
  assert (H21 : 2.66482868155692729992495016 <= exp (1.96028 / 2 ^ 1)) by (apply (exp_sq_lower _ _ _ _ H20); lra).
  assert (H22 : 7.10131190204843144545396068 <= exp (1.96028 / 2 ^ 0)) by (apply (exp_sq_lower _ _ _ _ H21); lra).
  replace (1.96028 / 2 ^ 0) with 1.96028 in H22 by lra. lra.
Qed.

Lemma exp_y312 : 4.83 <= exp 1.57567.
Proof.
  assert (H0 : 1.00000037566900253295898437 <= exp (1.57567 / 2 ^ 22)) by (apply Rle_trans with (1 + 1.57567 / 2 ^ 22); [lra | apply exp_ineq1_le]).
  assert (H1 : 1.00000075133814619311743284 <= exp (1.57567 / 2 ^ 21)) by (apply (exp_sq_lower _ _ _ _ H0); lra).
  assert (H2 : 1.00000150267685689524479058 <= exp (1.57567 / 2 ^ 20)) by (apply (exp_sq_lower _ _ _ _ H1); lra).
  assert (H3 : 1.00000300535597182822582972 <= exp (1.57567 / 2 ^ 19)) by (apply (exp_sq_lower _ _ _ _ H2); lra).
  assert (H4 : 1.00000601072097582096906301 <= exp (1.57567 / 2 ^ 18)) by (apply (exp_sq_lower _ _ _ _ H3); lra).
  assert (H5 : 1.00001202147808040858730019 <= exp (1.57567 / 2 ^ 17)) by (apply (exp_sq_lower _ _ _ _ H4); lra).
  assert (H6 : 1.00002404310067675241234450 <= exp (1.57567 / 2 ^ 16)) by (apply (exp_sq_lower _ _ _ _ H5); lra).
  assert (H7 : 1.00004808677942419497714130 <= exp (1.57567 / 2 ^ 15)) by (apply (exp_sq_lower _ _ _ _ H6); lra).
  assert (H8 : 1.00009617587118674534546401 <= exp (1.57567 / 2 ^ 14)) by (apply (exp_sq_lower _ _ _ _ H7); lra).
  assert (H9 : 1.00019236099217168922036156 <= exp (1.57567 / 2 ^ 13)) by (apply (exp_sq_lower _ _ _ _ H8); lra).
  assert (H10 : 1.00038475898709468771740463 <= exp (1.57567 / 2 ^ 12)) by (apply (exp_sq_lower _ _ _ _ H9); lra).
  assert (H11 : 1.00076966601366752556487872 <= exp (1.57567 / 2 ^ 11)) by (apply (exp_sq_lower _ _ _ _ H10); lra).
  assert (H12 : 1.00153992441310764598940707 <= exp (1.57567 / 2 ^ 10)) by (apply (exp_sq_lower _ _ _ _ H11); lra).
  assert (H13 : 1.00308222019341337690675724 <= exp (1.57567 / 2 ^ 9)) by (apply (exp_sq_lower _ _ _ _ H12); lra).
  assert (H14 : 1.00617394046814743900806229 <= exp (1.57567 / 2 ^ 8)) by (apply (exp_sq_lower _ _ _ _ H13); lra).
  assert (H15 : 1.01238599847719910663446547 <= exp (1.57567 / 2 ^ 7)) by (apply (exp_sq_lower _ _ _ _ H14); lra).
  assert (H16 : 1.02492540991267539185740247 <= exp (1.57567 / 2 ^ 6)) by (apply (exp_sq_lower _ _ _ _ H15); lra).
  assert (H17 : 1.05047209588466568040034335 <= exp (1.57567 / 2 ^ 5)) by (apply (exp_sq_lower _ _ _ _ H16); lra).
  assert (H18 : 1.10349162423232224711213159 <= exp (1.57567 / 2 ^ 4)) by (apply (exp_sq_lower _ _ _ _ H17); lra).
  assert (H19 : 1.21769376475088868356816441 <= exp (1.57567 / 2 ^ 3)) by (apply (exp_sq_lower _ _ _ _ H18); lra).
  assert (H20 : 1.48277810471319263144207995 <= exp (1.57567 / 2 ^ 2)) by (apply (exp_sq_lower _ _ _ _ H19); lra).
  assert (H21 : 2.19863090781684765218155991 <= exp (1.57567 / 2 ^ 1)) by (apply (exp_sq_lower _ _ _ _ H20); lra).
  assert (H22 : 4.83397786880753563846076726 <= exp (1.57567 / 2 ^ 0)) by (apply (exp_sq_lower _ _ _ _ H21); lra).
  replace (1.57567 / 2 ^ 0) with 1.57567 in H22 by lra. lra.
Qed.

Lemma exp_y323 : 3.467 <= exp 1.24363.
Proof.
  assert (H0 : 1.00000029650449752807617187 <= exp (1.24363 / 2 ^ 22)) by (apply Rle_trans with (1 + 1.24363 / 2 ^ 22); [lra | apply exp_ineq1_le]).
  assert (H1 : 1.00000059300908297106939811 <= exp (1.24363 / 2 ^ 21)) by (apply (exp_sq_lower _ _ _ _ H0); lra).
  assert (H2 : 1.00000118601851760191128240 <= exp (1.24363 / 2 ^ 20)) by (apply (exp_sq_lower _ _ _ _ H1); lra).
  assert (H3 : 1.00000237203844184374665943 <= exp (1.24363 / 2 ^ 19)) by (apply (exp_sq_lower _ _ _ _ H2); lra).
  assert (H4 : 1.00000474408251025386290336 <= exp (1.24363 / 2 ^ 18)) by (apply (exp_sq_lower _ _ _ _ H3); lra).
  assert (H5 : 1.00000948818752682658990330 <= exp (1.24363 / 2 ^ 17)) by (apply (exp_sq_lower _ _ _ _ H4); lra).
  assert (H6 : 1.00001897646507935572403427 <= exp (1.24363 / 2 ^ 16)) by (apply (exp_sq_lower _ _ _ _ H5); lra).
  assert (H7 : 1.00003795329026493835607578 <= exp (1.24363 / 2 ^ 15)) by (apply (exp_sq_lower _ _ _ _ H6); lra).
  assert (H8 : 1.00007590802098211864681614 <= exp (1.24363 / 2 ^ 14)) by (apply (exp_sq_lower _ _ _ _ H7); lra).
  assert (H9 : 1.00015182180399188671539700 <= exp (1.24363 / 2 ^ 13)) by (apply (exp_sq_lower _ _ _ _ H8); lra).
  assert (H10 : 1.00030366665784394078166298 <= exp (1.24363 / 2 ^ 12)) by (apply (exp_sq_lower _ _ _ _ H9); lra).
  assert (H11 : 1.00060742552912696767232741 <= exp (1.24363 / 2 ^ 11)) by (apply (exp_sq_lower _ _ _ _ H10); lra).
  assert (H12 : 1.00121522002402737052130688 <= exp (1.24363 / 2 ^ 10)) by (apply (exp_sq_lower _ _ _ _ H11); lra).
  assert (H13 : 1.00243191680776153812560087 <= exp (1.24363 / 2 ^ 9)) by (apply (exp_sq_lower _ _ _ _ H12); lra).
  assert (H14 : 1.00486974783488294932118495 <= exp (1.24363 / 2 ^ 8)) by (apply (exp_sq_lower _ _ _ _ H13); lra).
  assert (H15 : 1.00976321011374124581501541 <= exp (1.24363 / 2 ^ 7)) by (apply (exp_sq_lower _ _ _ _ H14); lra).
  assert (H16 : 1.01962174049920755098007511 <= exp (1.24363 / 2 ^ 6)) by (apply (exp_sq_lower _ _ _ _ H15); lra).
  assert (H17 : 1.03962849369863334375209395 <= exp (1.24363 / 2 ^ 5)) by (apply (exp_sq_lower _ _ _ _ H16); lra).
  assert (H18 : 1.08082740491008931013716934 <= exp (1.24363 / 2 ^ 4)) by (apply (exp_sq_lower _ _ _ _ H17); lra).
  assert (H19 : 1.16818787920467814979567779 <= exp (1.24363 / 2 ^ 3)) by (apply (exp_sq_lower _ _ _ _ H18); lra).
  assert (H20 : 1.36466292112072370841680738 <= exp (1.24363 / 2 ^ 2)) by (apply (exp_sq_lower _ _ _ _ H19); lra).
  assert (H21 : 1.86230488828174657813863949 <= exp (1.24363 / 2 ^ 1)) by (apply (exp_sq_lower _ _ _ _ H20); lra).
  assert (H22 : 3.46817949691808860336910565 <= exp (1.24363 / 2 ^ 0)) by (apply (exp_sq_lower _ _ _ _ H21); lra).
  replace (1.24363 / 2 ^ 0) with 1.24363 in H22 by lra. lra.
Qed.

Lemma exp_x273 : 1095 <= exp 6.9993.
Proof.
  assert (H0 : 1.00000166876316070556640624 <= exp (6.9993 / 2 ^ 22)) by (apply Rle_trans with (1 + 6.9993 / 2 ^ 22); [lra | apply exp_ineq1_le]).
  assert (H1 : 1.00000333752910618161934050 <= exp (6.9993 / 2 ^ 21)) by (apply (exp_sq_lower _ _ _ _ H0); lra).
  assert (H2 : 1.00000667506935146377329047 <= exp (6.9993 / 2 ^ 20)) by (apply (exp_sq_lower _ _ _ _ H1); lra).
  assert (H3 : 1.00001335018325947839343193 <= exp (6.9993 / 2 ^ 19)) by (apply (exp_sq_lower _ _ _ _ H2); lra).
  assert (H4 : 1.00002670054474634984852099 <= exp (6.9993 / 2 ^ 18)) by (apply (exp_sq_lower _ _ _ _ H3); lra).
  assert (H5 : 1.00005340180241178944887247 <= exp (6.9993 / 2 ^ 17)) by (apply (exp_sq_lower _ _ _ _ H4); lra).
  assert (H6 : 1.00010680645657607972554633 <= exp (6.9993 / 2 ^ 16)) by (apply (exp_sq_lower _ _ _ _ H5); lra).
  assert (H7 : 1.00021362432077132578909670 <= exp (6.9993 / 2 ^ 15)) by (apply (exp_sq_lower _ _ _ _ H6); lra).
  assert (H8 : 1.00042729427689307658848837 <= exp (6.9993 / 2 ^ 14)) by (apply (exp_sq_lower _ _ _ _ H7); lra).
  assert (H9 : 1.00085477113418521875418211 <= exp (6.9993 / 2 ^ 13)) by (apply (exp_sq_lower _ _ _ _ H8); lra).
  assert (H10 : 1.00171027290206227379360934 <= exp (6.9993 / 2 ^ 12)) by (apply (exp_sq_lower _ _ _ _ H9); lra).
  assert (H11 : 1.00342347083752407609918610 <= exp (6.9993 / 2 ^ 11)) by (apply (exp_sq_lower _ _ _ _ H10); lra).
  assert (H12 : 1.00685866182762352999742533 <= exp (6.9993 / 2 ^ 10)) by (apply (exp_sq_lower _ _ _ _ H11); lra).
  assert (H13 : 1.01376436489731276013556270 <= exp (6.9993 / 2 ^ 9)) by (apply (exp_sq_lower _ _ _ _ H12); lra).
  assert (H14 : 1.02771818753565189598099673 <= exp (6.9993 / 2 ^ 8)) by (apply (exp_sq_lower _ _ _ _ H13); lra).
  assert (H15 : 1.05620467299156536008832804 <= exp (6.9993 / 2 ^ 7)) by (apply (exp_sq_lower _ _ _ _ H14); lra).
  assert (H16 : 1.11556831124921951682051067 <= exp (6.9993 / 2 ^ 6)) by (apply (exp_sq_lower _ _ _ _ H15); lra).
  assert (H17 : 1.24449265706343551195749671 <= exp (6.9993 / 2 ^ 5)) by (apply (exp_sq_lower _ _ _ _ H16); lra).
  assert (H18 : 1.54876197348480970665230476 <= exp (6.9993 / 2 ^ 4)) by (apply (exp_sq_lower _ _ _ _ H17); lra).
  assert (H19 : 2.39866365051256240484378993 <= exp (6.9993 / 2 ^ 3)) by (apply (exp_sq_lower _ _ _ _ H18); lra).
  assert (H20 : 5.75358730829025211797348588 <= exp (6.9993 / 2 ^ 2)) by (apply (exp_sq_lower _ _ _ _ H19); lra).
  assert (H21 : 33.10376691411866866826898036 <= exp (6.9993 / 2 ^ 1)) by (apply (exp_sq_lower _ _ _ _ H20); lra).
  assert (H22 : 1095.85938390429784326475630963 <= exp (6.9993 / 2 ^ 0)) by (apply (exp_sq_lower _ _ _ _ H21); lra).
  replace (6.9993 / 2 ^ 0) with 6.9993 in H22 by lra. lra.
Qed.

Lemma exp_p273_low : 165.78 <= exp 5.1107.
Proof.
  assert (H0 : 1.00000121848583221435546874 <= exp (5.1107 / 2 ^ 22)) by (apply Rle_trans with (1 + 5.1107 / 2 ^ 22); [lra | apply exp_ineq1_le]).
  assert (H1 : 1.00000243697314913643424458 <= exp (5.1107 / 2 ^ 21)) by (apply (exp_sq_lower _ _ _ _ H0); lra).
  assert (H2 : 1.00000487395223711099810110 <= exp (5.1107 / 2 ^ 20)) by (apply (exp_sq_lower _ _ _ _ H1); lra).
  assert (H3 : 1.00000974792822963240584149 <= exp (5.1107 / 2 ^ 19)) by (apply (exp_sq_lower _ _ _ _ H2); lra).
  assert (H4 : 1.00001949595148136958174734 <= exp (5.1107 / 2 ^ 18)) by (apply (exp_sq_lower _ _ _ _ H3); lra).
  assert (H5 : 1.00003899228305486332741146 <= exp (5.1107 / 2 ^ 17)) by (apply (exp_sq_lower _ _ _ _ H4); lra).
  assert (H6 : 1.00007798608650786448540469 <= exp (5.1107 / 2 ^ 16)) by (apply (exp_sq_lower _ _ _ _ H5); lra).
  assert (H7 : 1.00015597825484541778293250 <= exp (5.1107 / 2 ^ 15)) by (apply (exp_sq_lower _ _ _ _ H6); lra).
  assert (H8 : 1.00031198083890682018796107 <= exp (5.1107 / 2 ^ 14)) by (apply (exp_sq_lower _ _ _ _ H7); lra).
  assert (H9 : 1.00062405900985748537921126 <= exp (5.1107 / 2 ^ 13)) by (apply (exp_sq_lower _ _ _ _ H8); lra).
  assert (H10 : 1.00124850746936275506345621 <= exp (5.1107 / 2 ^ 12)) by (apply (exp_sq_lower _ _ _ _ H9); lra).
  assert (H11 : 1.00249857370962656471768583 <= exp (5.1107 / 2 ^ 11)) by (apply (exp_sq_lower _ _ _ _ H10); lra).
  assert (H12 : 1.00500339028983556648831424 <= exp (5.1107 / 2 ^ 10)) by (apply (exp_sq_lower _ _ _ _ H11); lra).
  assert (H13 : 1.01003181449406355381065706 <= exp (5.1107 / 2 ^ 9)) by (apply (exp_sq_lower _ _ _ _ H12); lra).
  assert (H14 : 1.02016426629017041121742791 <= exp (5.1107 / 2 ^ 8)) by (apply (exp_sq_lower _ _ _ _ H13); lra).
  assert (H15 : 1.04073513021536172523328988 <= exp (5.1107 / 2 ^ 7)) by (apply (exp_sq_lower _ _ _ _ H14); lra).
  assert (H16 : 1.08312961126438592626176511 <= exp (5.1107 / 2 ^ 6)) by (apply (exp_sq_lower _ _ _ _ H15); lra).
  assert (H17 : 1.17316975479773977200146056 <= exp (5.1107 / 2 ^ 5)) by (apply (exp_sq_lower _ _ _ _ H16); lra).
  assert (H18 : 1.37632727357218886078632788 <= exp (5.1107 / 2 ^ 4)) by (apply (exp_sq_lower _ _ _ _ H17); lra).
  assert (H19 : 1.89427676397865479814144666 <= exp (5.1107 / 2 ^ 3)) by (apply (exp_sq_lower _ _ _ _ H18); lra).
  assert (H20 : 3.58828445854944425619336119 <= exp (5.1107 / 2 ^ 2)) by (apply (exp_sq_lower _ _ _ _ H19); lra).
  assert (H21 : 12.87578535546747833437390538 <= exp (5.1107 / 2 ^ 1)) by (apply (exp_sq_lower _ _ _ _ H20); lra).
  assert (H22 : 165.78584852007077740824118396 <= exp (5.1107 / 2 ^ 0)) by (apply (exp_sq_lower _ _ _ _ H21); lra).
  replace (5.1107 / 2 ^ 0) with 5.1107 in H22 by lra. lra.
Qed.

Lemma exp_p273_high : exp 5.11092 <= 165.83.
Proof.
  assert (H0 : exp (5.11092 / 2 ^ 22) <= 1.00000121853976913911745275) by (apply exp_upper_small; lra).
  assert (H1 : exp (5.11092 / 2 ^ 21) <= 1.00000243708102311740387912) by (apply (exp_sq_upper _ _ _ _ H0); lra).
  assert (H2 : exp (5.11092 / 2 ^ 20) <= 1.00000487416798559872099722) by (apply (exp_sq_upper _ _ _ _ H1); lra).
  assert (H3 : exp (5.11092 / 2 ^ 19) <= 1.00000974835972871099382994) by (apply (exp_sq_upper _ _ _ _ H2); lra).
  assert (H4 : exp (5.11092 / 2 ^ 18) <= 1.00001949681448793938801417) by (apply (exp_sq_upper _ _ _ _ H3); lra).
  assert (H5 : exp (5.11092 / 2 ^ 17) <= 1.00003899400910165395315157) by (apply (exp_sq_upper _ _ _ _ H4); lra).
  assert (H6 : exp (5.11092 / 2 ^ 16) <= 1.00007798953873605372617449) by (apply (exp_sq_upper _ _ _ _ H5); lra).
  assert (H7 : exp (5.11092 / 2 ^ 15) <= 1.00015598515984025971477363) by (apply (exp_sq_upper _ _ _ _ H6); lra).
  assert (H8 : exp (5.11092 / 2 ^ 14) <= 1.00031199465105060982091940) by (apply (exp_sq_upper _ _ _ _ H7); lra).
  assert (H9 : exp (5.11092 / 2 ^ 13) <= 1.00062408664276350383362664) by (apply (exp_sq_upper _ _ _ _ H8); lra).
  assert (H10 : exp (5.11092 / 2 ^ 12) <= 1.00124856276966468348850524) by (apply (exp_sq_upper _ _ _ _ H9); lra).
  assert (H11 : exp (5.11092 / 2 ^ 11) <= 1.00249868444831915972248577) by (apply (exp_sq_upper _ _ _ _ H10); lra).
  assert (H12 : exp (5.11092 / 2 ^ 10) <= 1.00500361232061059146854566) by (apply (exp_sq_upper _ _ _ _ H11); lra).
  assert (H13 : exp (5.11092 / 2 ^ 9) <= 1.01003226077747614904548071) by (apply (exp_sq_upper _ _ _ _ H12); lra).
  assert (H14 : exp (5.11092 / 2 ^ 8) <= 1.02016516781125958443747662) by (apply (exp_sq_upper _ _ _ _ H13); lra).
  assert (H15 : exp (5.11092 / 2 ^ 7) <= 1.04073696961537542853416000) by (apply (exp_sq_upper _ _ _ _ H14); lra).
  assert (H16 : exp (5.11092 / 2 ^ 6) <= 1.08313343992419487795812251) by (apply (exp_sq_upper _ _ _ _ H15); lra).
  assert (H17 : exp (5.11092 / 2 ^ 5) <= 1.17317804868201947479206925) by (apply (exp_sq_upper _ _ _ _ H16); lra).
  assert (H18 : exp (5.11092 / 2 ^ 4) <= 1.37634673390935085673424059) by (apply (exp_sq_upper _ _ _ _ H17); lra).
  assert (H19 : exp (5.11092 / 2 ^ 3) <= 1.89433033194293745146076516) by (apply (exp_sq_upper _ _ _ _ H18); lra).
  assert (H20 : exp (5.11092 / 2 ^ 2) <= 3.58848740651903959096506645) by (apply (exp_sq_upper _ _ _ _ H19); lra).
  assert (H21 : exp (5.11092 / 2 ^ 1) <= 12.87724186674574290705646679) by (apply (exp_sq_upper _ _ _ _ H20); lra).
  assert (H22 : exp (5.11092 / 2 ^ 0) <= 165.82335809466938552459629444) by (apply (exp_sq_upper _ _ _ _ H21); lra).
  replace (5.11092 / 2 ^ 0) with 5.11092 in H22 by lra. lra.
Qed.

Lemma exp_p300 : 28.63 <= exp 3.3559.
Proof.
  assert (H0 : 1.00000080010890960693359374 <= exp (3.3559 / 2 ^ 22)) by (apply Rle_trans with (1 + 3.3559 / 2 ^ 22); [lra | apply exp_ineq1_le]).
  assert (H1 : 1.00000160021845938813441987 <= exp (3.3559 / 2 ^ 21)) by (apply (exp_sq_lower _ _ _ _ H0); lra).
  assert (H2 : 1.00000320043947947538660626 <= exp (3.3559 / 2 ^ 20)) by (apply (exp_sq_lower _ _ _ _ H1); lra).
  assert (H3 : 1.00000640088920176363499719 <= exp (3.3559 / 2 ^ 19)) by (apply (exp_sq_lower _ _ _ _ H2); lra).
  assert (H4 : 1.00001280181937490984324867 <= exp (3.3559 / 2 ^ 18)) by (apply (exp_sq_lower _ _ _ _ H3); lra).
  assert (H5 : 1.00002560380263639899431438 <= exp (3.3559 / 2 ^ 17)) by (apply (exp_sq_lower _ _ _ _ H4); lra).
  assert (H6 : 1.00005120826082750743230084 <= exp (3.3559 / 2 ^ 16)) by (apply (exp_sq_lower _ _ _ _ H5); lra).
  assert (H7 : 1.00010241914394099184263385 <= exp (3.3559 / 2 ^ 15)) by (apply (exp_sq_lower _ _ _ _ H6); lra).
  assert (H8 : 1.00020484877756302929087376 <= exp (3.3559 / 2 ^ 14)) by (apply (exp_sq_lower _ _ _ _ H7); lra).
  assert (H9 : 1.00040973951814772764920013 <= exp (3.3559 / 2 ^ 13)) by (apply (exp_sq_lower _ _ _ _ H8); lra).
  assert (H10 : 1.00081964692276818723043583 <= exp (3.3559 / 2 ^ 12)) by (apply (exp_sq_lower _ _ _ _ H9); lra).
  assert (H11 : 1.00163996566661437781955413 <= exp (3.3559 / 2 ^ 11)) by (apply (exp_sq_lower _ _ _ _ H10); lra).
  assert (H12 : 1.00328262082061642957972467 <= exp (3.3559 / 2 ^ 10)) by (apply (exp_sq_lower _ _ _ _ H11); lra).
  assert (H13 : 1.00657601724068480364099465 <= exp (3.3559 / 2 ^ 9)) by (apply (exp_sq_lower _ _ _ _ H12); lra).
  assert (H14 : 1.01319527848411939106068815 <= exp (3.3559 / 2 ^ 8)) by (apply (exp_sq_lower _ _ _ _ H13); lra).
  assert (H15 : 1.02656467234251224625622086 <= exp (3.3559 / 2 ^ 7)) by (apply (exp_sq_lower _ _ _ _ H14); lra).
  assert (H16 : 1.05383502650168952758531582 <= exp (3.3559 / 2 ^ 6)) by (apply (exp_sq_lower _ _ _ _ H15); lra).
  assert (H17 : 1.11056826308181666894529040 <= exp (3.3559 / 2 ^ 5)) by (apply (exp_sq_lower _ _ _ _ H16); lra).
  assert (H18 : 1.23336186696456316083672836 <= exp (3.3559 / 2 ^ 4)) by (apply (exp_sq_lower _ _ _ _ H17); lra).
  assert (H19 : 1.52118149488231279677927290 <= exp (3.3559 / 2 ^ 3)) by (apply (exp_sq_lower _ _ _ _ H18); lra).
  assert (H20 : 2.31399314037238783353850134 <= exp (3.3559 / 2 ^ 2)) by (apply (exp_sq_lower _ _ _ _ H19); lra).
  assert (H21 : 5.35456425369046538459378074 <= exp (3.3559 / 2 ^ 1)) by (apply (exp_sq_lower _ _ _ _ H20); lra).
  assert (H22 : 28.67135834689973054203625299 <= exp (3.3559 / 2 ^ 0)) by (apply (exp_sq_lower _ _ _ _ H21); lra).
  replace (3.3559 / 2 ^ 0) with 3.3559 in H22 by lra. lra.
Qed.

Lemma exp_p312 : 14.59 <= exp 2.6813.
Proof.
  assert (H0 : 1.00000063927173614501953124 <= exp (2.6813 / 2 ^ 22)) by (apply Rle_trans with (1 + 2.6813 / 2 ^ 22); [lra | apply exp_ineq1_le]).
  assert (H1 : 1.00000127854388095839169634 <= exp (2.6813 / 2 ^ 21)) by (apply (exp_sq_lower _ _ _ _ H0); lra).
  assert (H2 : 1.00000255708939659123892882 <= exp (2.6813 / 2 ^ 20)) by (apply (exp_sq_lower _ _ _ _ H1); lra).
  assert (H3 : 1.00000511418533188866001698 <= exp (2.6813 / 2 ^ 19)) by (apply (exp_sq_lower _ _ _ _ H2); lra).
  assert (H4 : 1.00001022839681866892893907 <= exp (2.6813 / 2 ^ 18)) by (apply (exp_sq_lower _ _ _ _ H3); lra).
  assert (H5 : 1.00002045689825743933803480 <= exp (2.6813 / 2 ^ 17)) by (apply (exp_sq_lower _ _ _ _ H4); lra).
  assert (H6 : 1.00004091421499956499129422 <= exp (2.6813 / 2 ^ 16)) by (apply (exp_sq_lower _ _ _ _ H5); lra).
  assert (H7 : 1.00008183010397211901321735 <= exp (2.6813 / 2 ^ 15)) by (apply (exp_sq_lower _ _ _ _ H6); lra).
  assert (H8 : 1.00016366690411015411424259 <= exp (2.6813 / 2 ^ 14)) by (apply (exp_sq_lower _ _ _ _ H7); lra).
  assert (H9 : 1.00032736059507580923086686 <= exp (2.6813 / 2 ^ 13)) by (apply (exp_sq_lower _ _ _ _ H8); lra).
  assert (H10 : 1.00065482835511082684966856 <= exp (2.6813 / 2 ^ 12)) by (apply (exp_sq_lower _ _ _ _ H9); lra).
  assert (H11 : 1.00131008551039631085048944 <= exp (2.6813 / 2 ^ 11)) by (apply (exp_sq_lower _ _ _ _ H10); lra).
  assert (H12 : 1.00262188734483717206328439 <= exp (2.6813 / 2 ^ 10)) by (apply (exp_sq_lower _ _ _ _ H11); lra).
  assert (H13 : 1.00525064898292336144258042 <= exp (2.6813 / 2 ^ 9)) by (apply (exp_sq_lower _ _ _ _ H12); lra).
  assert (H14 : 1.01052886728058859701512269 <= exp (2.6813 / 2 ^ 8)) by (apply (exp_sq_lower _ _ _ _ H13); lra).
  assert (H15 : 1.02116859160738944314835298 <= exp (2.6813 / 2 ^ 7)) by (apply (exp_sq_lower _ _ _ _ H14); lra).
  assert (H16 : 1.04278529248541932506507836 <= exp (2.6813 / 2 ^ 6)) by (apply (exp_sq_lower _ _ _ _ H15); lra).
  assert (H17 : 1.08740116622390152949649322 <= exp (2.6813 / 2 ^ 5)) by (apply (exp_sq_lower _ _ _ _ H16); lra).
  assert (H18 : 1.18244129630510112453747213 <= exp (2.6813 / 2 ^ 4)) by (apply (exp_sq_lower _ _ _ _ H17); lra).
  assert (H19 : 1.39816741920768795431137858 <= exp (2.6813 / 2 ^ 3)) by (apply (exp_sq_lower _ _ _ _ H18); lra).
  assert (H20 : 1.95487213213388662311699450 <= exp (2.6813 / 2 ^ 2)) by (apply (exp_sq_lower _ _ _ _ H19); lra).
  assert (H21 : 3.82152505299368788077592467 <= exp (2.6813 / 2 ^ 1)) by (apply (exp_sq_lower _ _ _ _ H20); lra).
  assert (H22 : 14.60405373065840896549538624 <= exp (2.6813 / 2 ^ 0)) by (apply (exp_sq_lower _ _ _ _ H21); lra).
  replace (2.6813 / 2 ^ 0) with 2.6813 in H22 by lra. lra.
Qed.

Lemma exp_p323 : 8.2 <= exp 2.1049.
Proof.
  assert (H0 : 1.00000050184726715087890624 <= exp (2.1049 / 2 ^ 22)) by (apply Rle_trans with (1 + 2.1049 / 2 ^ 22); [lra | apply exp_ineq1_le]).
  assert (H1 : 1.00000100369478615243735928 <= exp (2.1049 / 2 ^ 21)) by (apply (exp_sq_lower _ _ _ _ H0); lra).
  assert (H2 : 1.00000200739057970809846814 <= exp (2.1049 / 2 ^ 20)) by (apply (exp_sq_lower _ _ _ _ H1); lra).
  assert (H3 : 1.00000401478518903313643709 <= exp (2.1049 / 2 ^ 19)) by (apply (exp_sq_lower _ _ _ _ H2); lra).
  assert (H4 : 1.00000802958649656638695401 <= exp (2.1049 / 2 ^ 18)) by (apply (exp_sq_lower _ _ _ _ H3); lra).
  assert (H5 : 1.00001605923746739207974927 <= exp (2.1049 / 2 ^ 17)) by (apply (exp_sq_lower _ _ _ _ H4); lra).
  assert (H6 : 1.00003211873283389219358811 <= exp (2.1049 / 2 ^ 16)) by (apply (exp_sq_lower _ _ _ _ H5); lra).
  assert (H7 : 1.00006423849728078324212067 <= exp (2.1049 / 2 ^ 15)) by (apply (exp_sq_lower _ _ _ _ H6); lra).
  assert (H8 : 1.00012848112114609937743732 <= exp (2.1049 / 2 ^ 14)) by (apply (exp_sq_lower _ _ _ _ H7); lra).
  assert (H9 : 1.00025697874969068971353923 <= exp (2.1049 / 2 ^ 13)) by (apply (exp_sq_lower _ _ _ _ H8); lra).
  assert (H10 : 1.00051402353745917201723699 <= exp (2.1049 / 2 ^ 12)) by (apply (exp_sq_lower _ _ _ _ H9); lra).
  assert (H11 : 1.00102831129511540607529196 <= exp (2.1049 / 2 ^ 11)) by (apply (exp_sq_lower _ _ _ _ H10); lra).
  assert (H12 : 1.00205768001435047407435039 <= exp (2.1049 / 2 ^ 10)) by (apply (exp_sq_lower _ _ _ _ H11); lra).
  assert (H13 : 1.00411959407574240551589332 <= exp (2.1049 / 2 ^ 9)) by (apply (exp_sq_lower _ _ _ _ H12); lra).
  assert (H14 : 1.00825615920683370295614122 <= exp (2.1049 / 2 ^ 8)) by (apply (exp_sq_lower _ _ _ _ H13); lra).
  assert (H15 : 1.01658048257851599083139195 <= exp (2.1049 / 2 ^ 7)) by (apply (exp_sq_lower _ _ _ _ H14); lra).
  assert (H16 : 1.03343587755956845394284876 <= exp (2.1049 / 2 ^ 6)) by (apply (exp_sq_lower _ _ _ _ H15); lra).
  assert (H17 : 1.06798971302731536119704088 <= exp (2.1049 / 2 ^ 5)) by (apply (exp_sq_lower _ _ _ _ H16); lra).
  assert (H18 : 1.14060202713216741853138417 <= exp (2.1049 / 2 ^ 4)) by (apply (exp_sq_lower _ _ _ _ H17); lra).
  assert (H19 : 1.30097298429800957997797651 <= exp (2.1049 / 2 ^ 3)) by (apply (exp_sq_lower _ _ _ _ H18); lra).
  assert (H20 : 1.69253070587326908113787921 <= exp (2.1049 / 2 ^ 2)) by (apply (exp_sq_lower _ _ _ _ H19); lra).
  assert (H21 : 2.86466019032386649286859268 <= exp (2.1049 / 2 ^ 1)) by (apply (exp_sq_lower _ _ _ _ H20); lra).
  assert (H22 : 8.20627800602637099809604220 <= exp (2.1049 / 2 ^ 0)) by (apply (exp_sq_lower _ _ _ _ H21); lra).
  replace (2.1049 / 2 ^ 0) with 2.1049 in H22 by lra. lra.
Qed.

Lemma exp_b8850 : 1.249594 <= exp 0.22283.
Proof.
  assert (H0 : 1.00000005312681198120117187 <= exp (0.22283 / 2 ^ 22)) by (apply Rle_trans with (1 + 0.22283 / 2 ^ 22); [lra | apply exp_ineq1_le]).
  assert (H1 : 1.00000010625362678486049502 <= exp (0.22283 / 2 ^ 21)) by (apply (exp_sq_lower _ _ _ _ H0); lra).
  assert (H2 : 1.00000021250726485955419497 <= exp (0.22283 / 2 ^ 20)) by (apply (exp_sq_lower _ _ _ _ H1); lra).
  assert (H3 : 1.00000042501457487844600802 <= exp (0.22283 / 2 ^ 19)) by (apply (exp_sq_lower _ _ _ _ H2); lra).
  assert (H4 : 1.00000085002933039428087514 <= exp (0.22283 / 2 ^ 18)) by (apply (exp_sq_lower _ _ _ _ H3); lra).
  assert (H5 : 1.00000170005938333842428082 <= exp (0.22283 / 2 ^ 17)) by (apply (exp_sq_lower _ _ _ _ H4); lra).
  assert (H6 : 1.00000340012165687875543865 <= exp (0.22283 / 2 ^ 16)) by (apply (exp_sq_lower _ _ _ _ H5); lra).
  assert (H7 : 1.00000680025487458479245322 <= exp (0.22283 / 2 ^ 15)) by (apply (exp_sq_lower _ _ _ _ H6); lra).
  assert (H8 : 1.00001360055599263594422066 <= exp (0.22283 / 2 ^ 14)) by (apply (exp_sq_lower _ _ _ _ H7); lra).
  assert (H9 : 1.00002720129696039519726680 <= exp (0.22283 / 2 ^ 13)) by (apply (exp_sq_lower _ _ _ _ H8); lra).
  assert (H10 : 1.00005440333383134672213859 <= exp (0.22283 / 2 ^ 12)) by (apply (exp_sq_lower _ _ _ _ H9); lra).
  assert (H11 : 1.00010880962738542540923199 <= exp (0.22283 / 2 ^ 11)) by (apply (exp_sq_lower _ _ _ _ H10); lra).
  assert (H12 : 1.00021763109430586257358315 <= exp (0.22283 / 2 ^ 10)) by (apply (exp_sq_lower _ _ _ _ H11); lra).
  assert (H13 : 1.00043530955190493391441539 <= exp (0.22283 / 2 ^ 9)) by (apply (exp_sq_lower _ _ _ _ H12); lra).
  assert (H14 : 1.00087080859821584750318453 <= exp (0.22283 / 2 ^ 8)) by (apply (exp_sq_lower _ _ _ _ H13); lra).
  assert (H15 : 1.00174237550404642165569636 <= exp (0.22283 / 2 ^ 7)) by (apply (exp_sq_lower _ _ _ _ H14); lra).
  assert (H16 : 1.00348778688048994433332019 <= exp (0.22283 / 2 ^ 6)) by (apply (exp_sq_lower _ _ _ _ H15); lra).
  assert (H17 : 1.00698773841830360644387598 <= exp (0.22283 / 2 ^ 5)) by (apply (exp_sq_lower _ _ _ _ H16); lra).
  assert (H18 : 1.01402430532480984907529969 <= exp (0.22283 / 2 ^ 4)) by (apply (exp_sq_lower _ _ _ _ H17); lra).
  assert (H19 : 1.02824529178946318803697275 <= exp (0.22283 / 2 ^ 3)) by (apply (exp_sq_lower _ _ _ _ H18); lra).
  assert (H20 : 1.05728838008719829265698164 <= exp (0.22283 / 2 ^ 2)) by (apply (exp_sq_lower _ _ _ _ H19); lra).
  assert (H21 : 1.11785871866741188317173556 <= exp (0.22283 / 2 ^ 1)) by (apply (exp_sq_lower _ _ _ _ H20); lra).
  assert (H22 : 1.24960811490074790864608279 <= exp (0.22283 / 2 ^ 0)) by (apply (exp_sq_lower _ _ _ _ H21); lra).
  replace (0.22283 / 2 ^ 0) with 0.22283 in H22 by lra. lra.
Qed.

Lemma exp_b8850_p : exp 1.1713 <= 3.2265.
Proof.
  assert (H0 : exp (1.1713 / 2 ^ 22) <= 1.00000027925975968765175872) by (apply exp_upper_small; lra).
  assert (H1 : exp (1.1713 / 2 ^ 21) <= 1.00000055851959736131689826) by (apply (exp_sq_upper _ _ _ _ H0); lra).
  assert (H2 : exp (1.1713 / 2 ^ 20) <= 1.00000111703950666677443318) by (apply (exp_sq_upper _ _ _ _ H1); lra).
  assert (H3 : exp (1.1713 / 2 ^ 19) <= 1.00000223408026111080832072) by (apply (exp_sq_upper _ _ _ _ H2); lra).
  assert (H4 : exp (1.1713 / 2 ^ 18) <= 1.00000446816551333622972639) by (apply (exp_sq_upper _ _ _ _ H3); lra).
  assert (H5 : exp (1.1713 / 2 ^ 17) <= 1.00000893635099117551402000) by (apply (exp_sq_upper _ _ _ _ H4); lra).
  assert (H6 : exp (1.1713 / 2 ^ 16) <= 1.00001787278184072006552360) by (apply (exp_sq_upper _ _ _ _ H5); lra).
  assert (H7 : exp (1.1713 / 2 ^ 15) <= 1.00003574588311777085702014) by (apply (exp_sq_upper _ _ _ _ H6); lra).
  assert (H8 : exp (1.1713 / 2 ^ 14) <= 1.00007149304400370158337586) by (apply (exp_sq_upper _ _ _ _ H7); lra).
  assert (H9 : exp (1.1713 / 2 ^ 13) <= 1.00014299119926274408196266) by (apply (exp_sq_upper _ _ _ _ H8); lra).
  assert (H10 : exp (1.1713 / 2 ^ 12) <= 1.00028600284500855476170902) by (apply (exp_sq_upper _ _ _ _ H9); lra).
  assert (H11 : exp (1.1713 / 2 ^ 11) <= 1.00057208748764446251081542) by (apply (exp_sq_upper _ _ _ _ H10); lra).
  assert (H12 : exp (1.1713 / 2 ^ 10) <= 1.00114450225938244437467682) by (apply (exp_sq_upper _ _ _ _ H11); lra).
  assert (H13 : exp (1.1713 / 2 ^ 9) <= 1.00229031440418662026933632) by (apply (exp_sq_upper _ _ _ _ H12); lra).
  assert (H14 : exp (1.1713 / 2 ^ 8) <= 1.00458587434844326525207056) by (apply (exp_sq_upper _ _ _ _ H13); lra).
  assert (H15 : exp (1.1713 / 2 ^ 7) <= 1.00919277894042624044674299) by (apply (exp_sq_upper _ _ _ _ H14); lra).
  assert (H16 : exp (1.1713 / 2 ^ 6) <= 1.01847006506550002508549056) by (apply (exp_sq_upper _ _ _ _ H15); lra).
  assert (H17 : exp (1.1713 / 2 ^ 5) <= 1.03728127343452385461693267) by (apply (exp_sq_upper _ _ _ _ H16); lra).
  assert (H18 : exp (1.1713 / 2 ^ 4) <= 1.07595244021794744332064868) by (apply (exp_sq_upper _ _ _ _ H17); lra).
  assert (H19 : exp (1.1713 / 2 ^ 3) <= 1.15767365361095576691272840) by (apply (exp_sq_upper _ _ _ _ H18); lra).
  assert (H20 : exp (1.1713 / 2 ^ 2) <= 1.34020828826493919837981660) by (apply (exp_sq_upper _ _ _ _ H19); lra).
  assert (H21 : exp (1.1713 / 2 ^ 1) <= 1.79615825593403836303960555) by (apply (exp_sq_upper _ _ _ _ H20); lra).
  assert (H22 : exp (1.1713 / 2 ^ 0) <= 3.22618448036000645839297647) by (apply (exp_sq_upper _ _ _ _ H21); lra).
  replace (1.1713 / 2 ^ 0) with 1.1713 in H22 by lra. lra.
Qed.
