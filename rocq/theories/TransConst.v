(** The float values of the decimal literals of TransMath.v. *)
From Coq Require Import ZArith Reals List Lia Lra Bool.
From Flocq Require Import Core IEEE754.Binary IEEE754.Bits.
From Verif Require Import Float FloatFacts FloatRound LaneOps TransMath.
Local Open Scope Z_scope.

(** Proof auxiliary: the literal is m * 2^e. *)
Definition lit_check (x : F F32) (m e : Z) : bool :=
  (bits x =? bits (f_lit F32 m e)) && (Z.abs m <=? 16777216) && (-149 <=? e) && (e <? 104).
Lemma lit_is x m e : lit_check x m e = true ->
  isfin x = true /\ val x = (IZR m * bpow radix2 e)%R /\ sgn x = (m <? 0).
Proof.
  unfold lit_check. rewrite !andb_true_iff, Z.eqb_eq, !Z.leb_le, Z.ltb_lt. intros [[[H1 H2] H3] H4].
  apply bits_inj in H1. subst x. apply (f_lit_exact (t := F32)); [exact H2|exact H3|].
  change (emax F32) with 128. change (prec F32) with 24. lia.
Qed.
Lemma litf_144269504088896341_17 : isfin (litf 144269504088896341 17) = true /\ val (litf 144269504088896341 17) = (IZR 12102203 * bpow radix2 (-23))%R /\ sgn (litf 144269504088896341 17) = false.
Proof. apply lit_is. vm_compute. reflexivity. Qed.
Lemma litf_693359375_9 : isfin (litf 693359375 9) = true /\ val (litf 693359375 9) = (IZR 355 * bpow radix2 (-9))%R /\ sgn (litf 693359375 9) = false.
Proof. apply lit_is. vm_compute. reflexivity. Qed.
Lemma litf_212194440_12 : isfin (litf 212194440 12) = true /\ val (litf 212194440 12) = (IZR 14581891 * bpow radix2 (-36))%R /\ sgn (litf 212194440 12) = false.
Proof. apply lit_is. vm_compute. reflexivity. Qed.
Lemma litf_100000035762786865234375_23 : isfin (litf 100000035762786865234375 23) = true /\ val (litf 100000035762786865234375 23) = (IZR 8388611 * bpow radix2 (-23))%R /\ sgn (litf 100000035762786865234375 23) = false.
Proof. apply lit_is. vm_compute. reflexivity. Qed.
Lemma litf_4999996721744537353515625_25 : isfin (litf 4999996721744537353515625 25) = true /\ val (litf 4999996721744537353515625 25) = (IZR 16777205 * bpow radix2 (-25))%R /\ sgn (litf 4999996721744537353515625 25) = false.
Proof. apply lit_is. vm_compute. reflexivity. Qed.
Lemma litf_16665561497211456298828125_26 : isfin (litf 16665561497211456298828125 26) = true /\ val (litf 16665561497211456298828125 26) = (IZR 11184069 * bpow radix2 (-26))%R /\ sgn (litf 16665561497211456298828125 26) = false.
Proof. apply lit_is. vm_compute. reflexivity. Qed.
Lemma litf_4167006909847259521484375_26 : isfin (litf 4167006909847259521484375 26) = true /\ val (litf 4167006909847259521484375 26) = (IZR 2796431 * bpow radix2 (-26))%R /\ sgn (litf 4167006909847259521484375 26) = false.
Proof. apply lit_is. vm_compute. reflexivity. Qed.
Lemma litf_8420792408287525177001953125_30 : isfin (litf 8420792408287525177001953125 30) = true /\ val (litf 8420792408287525177001953125 30) = (IZR 9041757 * bpow radix2 (-30))%R /\ sgn (litf 8420792408287525177001953125 30) = false.
Proof. apply lit_is. vm_compute. reflexivity. Qed.
Lemma litf_1386119984090328216552734375_30 : isfin (litf 1386119984090328216552734375 30) = true /\ val (litf 1386119984090328216552734375 30) = (IZR 1488335 * bpow radix2 (-30))%R /\ sgn (litf 1386119984090328216552734375 30) = false.
Proof. apply lit_is. vm_compute. reflexivity. Qed.
Lemma litf_8872283905206835_14 : isfin (litf 8872283905206835 14) = true /\ val (litf 8872283905206835 14) = (IZR 1453635 * bpow radix2 (-14))%R /\ sgn (litf 8872283905206835 14) = false.
Proof. apply lit_is. vm_compute. reflexivity. Qed.
Lemma litf_880_1 : isfin (litf 880 1) = true /\ val (litf 880 1) = (IZR 11 * bpow radix2 (3))%R /\ sgn (litf 880 1) = false.
Proof. apply lit_is. vm_compute. reflexivity. Qed.
Lemma litf_707106781186547524_18 : isfin (litf 707106781186547524 18) = true /\ val (litf 707106781186547524 18) = (IZR 11863283 * bpow radix2 (-24))%R /\ sgn (litf 707106781186547524 18) = false.
Proof. apply lit_is. vm_compute. reflexivity. Qed.
Lemma litd_70376836292_12 : isfin (litd 70376836292 12) = true /\ val (litd 70376836292 12) = (IZR 9445819 * bpow radix2 (-27))%R /\ sgn (litd 70376836292 12) = false.
Proof. apply lit_is. vm_compute. reflexivity. Qed.
Lemma litd_11514610310_11 : isfin (litd 11514610310 11) = true /\ val (litd 11514610310 11) = (IZR 1931831 * bpow radix2 (-24))%R /\ sgn (litd 11514610310 11) = false.
Proof. apply lit_is. vm_compute. reflexivity. Qed.
Lemma litd_11676998740_11 : isfin (litd 11676998740 11) = true /\ val (litd 11676998740 11) = (IZR 7836301 * bpow radix2 (-26))%R /\ sgn (litd 11676998740 11) = false.
Proof. apply lit_is. vm_compute. reflexivity. Qed.
Lemma litd_12420140846_11 : isfin (litd 12420140846 11) = true /\ val (litd 12420140846 11) = (IZR 16670031 * bpow radix2 (-27))%R /\ sgn (litd 12420140846 11) = false.
Proof. apply lit_is. vm_compute. reflexivity. Qed.
Lemma litd_14249322787_11 : isfin (litd 14249322787 11) = true /\ val (litd 14249322787 11) = (IZR 9562559 * bpow radix2 (-26))%R /\ sgn (litd 14249322787 11) = false.
Proof. apply lit_is. vm_compute. reflexivity. Qed.
Lemma litd_16668057665_11 : isfin (litd 16668057665 11) = true /\ val (litd 16668057665 11) = (IZR 699109 * bpow radix2 (-22))%R /\ sgn (litd 16668057665 11) = false.
Proof. apply lit_is. vm_compute. reflexivity. Qed.
Lemma litd_20000714765_11 : isfin (litd 20000714765 11) = true /\ val (litd 20000714765 11) = (IZR 3355563 * bpow radix2 (-24))%R /\ sgn (litd 20000714765 11) = false.
Proof. apply lit_is. vm_compute. reflexivity. Qed.
Lemma litd_24999993993_11 : isfin (litd 24999993993 11) = true /\ val (litd 24999993993 11) = (IZR 4194303 * bpow radix2 (-24))%R /\ sgn (litd 24999993993 11) = false.
Proof. apply lit_is. vm_compute. reflexivity. Qed.
Lemma litd_33333331174_11 : isfin (litd 33333331174 11) = true /\ val (litd 33333331174 11) = (IZR 5592405 * bpow radix2 (-24))%R /\ sgn (litd 33333331174 11) = false.
Proof. apply lit_is. vm_compute. reflexivity. Qed.
Lemma litd_212194440_12 : isfin (litd 212194440 12) = true /\ val (litd 212194440 12) = (IZR 14581891 * bpow radix2 (-36))%R /\ sgn (litd 212194440 12) = false.
Proof. apply lit_is. vm_compute. reflexivity. Qed.
Lemma litd_5_1 : isfin (litd 5 1) = true /\ val (litd 5 1) = (IZR 1 * bpow radix2 (-1))%R /\ sgn (litd 5 1) = false.
Proof. apply lit_is. vm_compute. reflexivity. Qed.
Lemma litd_693359375_9 : isfin (litd 693359375 9) = true /\ val (litd 693359375 9) = (IZR 355 * bpow radix2 (-9))%R /\ sgn (litd 693359375 9) = false.
Proof. apply lit_is. vm_compute. reflexivity. Qed.
Lemma litd_127323954473516268615107010698011489627567716592367_50 : isfin (litd 127323954473516268615107010698011489627567716592367 50) = true /\ val (litd 127323954473516268615107010698011489627567716592367 50) = (IZR 10680707 * bpow radix2 (-23))%R /\ sgn (litd 127323954473516268615107010698011489627567716592367 50) = false.
Proof. apply lit_is. vm_compute. reflexivity. Qed.
Lemma litd_78515625_8 : isfin (litd 78515625 8) = true /\ val (litd 78515625 8) = (IZR 201 * bpow radix2 (-8))%R /\ sgn (litd 78515625 8) = false.
Proof. apply lit_is. vm_compute. reflexivity. Qed.
Lemma litd_24187564849853515625_23 : isfin (litd 24187564849853515625 23) = true /\ val (litd 24187564849853515625 23) = (IZR 2029 * bpow radix2 (-23))%R /\ sgn (litd 24187564849853515625 23) = false.
Proof. apply lit_is. vm_compute. reflexivity. Qed.
Lemma litd_377489497744594108_25 : isfin (litd 377489497744594108 25) = true /\ val (litd 377489497744594108 25) = (IZR 10625385 * bpow radix2 (-48))%R /\ sgn (litd 377489497744594108 25) = false.
Proof. apply lit_is. vm_compute. reflexivity. Qed.
Lemma litd_2443315711809948_20 : isfin (litd 2443315711809948 20) = true /\ val (litd 2443315711809948 20) = (IZR 6716135 * bpow radix2 (-38))%R /\ sgn (litd 2443315711809948 20) = false.
Proof. apply lit_is. vm_compute. reflexivity. Qed.
Lemma litd_1388731625493765_18 : isfin (litd 1388731625493765 18) = true /\ val (litd 1388731625493765 18) = (IZR 5964557 * bpow radix2 (-32))%R /\ sgn (litd 1388731625493765 18) = false.
Proof. apply lit_is. vm_compute. reflexivity. Qed.
Lemma litd_4166664568298827_17 : isfin (litd 4166664568298827 17) = true /\ val (litd 4166664568298827 17) = (IZR 11184805 * bpow radix2 (-28))%R /\ sgn (litd 4166664568298827 17) = false.
Proof. apply lit_is. vm_compute. reflexivity. Qed.
Lemma litf_5_1 : isfin (litf 5 1) = true /\ val (litf 5 1) = (IZR 1 * bpow radix2 (-1))%R /\ sgn (litf 5 1) = false.
Proof. apply lit_is. vm_compute. reflexivity. Qed.
Lemma litd_19515295891_14 : isfin (litd 19515295891 14) = true /\ val (litd 19515295891 14) = (IZR 13410809 * bpow radix2 (-36))%R /\ sgn (litd 19515295891 14) = false.
Proof. apply lit_is. vm_compute. reflexivity. Qed.
Lemma litd_83321608736_13 : isfin (litd 83321608736 13) = true /\ val (litd 83321608736 13) = (IZR 4473295 * bpow radix2 (-29))%R /\ sgn (litd 83321608736 13) = false.
Proof. apply lit_is. vm_compute. reflexivity. Qed.
Lemma litd_16666654611_11 : isfin (litd 16666654611 11) = true /\ val (litd 16666654611 11) = (IZR 11184803 * bpow radix2 (-26))%R /\ sgn (litd 16666654611 11) = false.
Proof. apply lit_is. vm_compute. reflexivity. Qed.
Lemma litd_3333315551280975341796875_25 : isfin (litd 3333315551280975341796875 25) = true /\ val (litd 3333315551280975341796875 25) = (IZR 11184751 * bpow radix2 (-25))%R /\ sgn (litd 3333315551280975341796875 25) = false.
Proof. apply lit_is. vm_compute. reflexivity. Qed.
Lemma litd_1333882510662078857421875_25 : isfin (litd 1333882510662078857421875 25) = true /\ val (litd 1333882510662078857421875 25) = (IZR 4475767 * bpow radix2 (-25))%R /\ sgn (litd 1333882510662078857421875 25) = false.
Proof. apply lit_is. vm_compute. reflexivity. Qed.
Lemma litd_53409568965435028076171875_27 : isfin (litd 53409568965435028076171875 27) = true /\ val (litd 53409568965435028076171875 27) = (IZR 7168511 * bpow radix2 (-27))%R /\ sgn (litd 53409568965435028076171875 27) = false.
Proof. apply lit_is. vm_compute. reflexivity. Qed.
Lemma litd_2443529665470123291015625_26 : isfin (litd 2443529665470123291015625 26) = true /\ val (litd 2443529665470123291015625 26) = (IZR 1639825 * bpow radix2 (-26))%R /\ sgn (litd 2443529665470123291015625 26) = false.
Proof. apply lit_is. vm_compute. reflexivity. Qed.
Lemma litd_31127030961215496063232421875_31 : isfin (litd 31127030961215496063232421875 31) = true /\ val (litd 31127030961215496063232421875 31) = (IZR 6684479 * bpow radix2 (-31))%R /\ sgn (litd 31127030961215496063232421875 31) = false.
Proof. apply lit_is. vm_compute. reflexivity. Qed.
Lemma litd_93892104923725128173828125_28 : isfin (litd 93892104923725128173828125 28) = true /\ val (litd 93892104923725128173828125 28) = (IZR 2520397 * bpow radix2 (-28))%R /\ sgn (litd 93892104923725128173828125 28) = false.
Proof. apply lit_is. vm_compute. reflexivity. Qed.
Lemma litd_10_1 : isfin (litd 10 1) = true /\ val (litd 10 1) = (IZR 1 * bpow radix2 (0))%R /\ sgn (litd 10 1) = false.
Proof. apply lit_is. vm_compute. reflexivity. Qed.
Lemma litd_166667520999908447265625_24 : isfin (litd 166667520999908447265625 24) = true /\ val (litd 166667520999908447265625 24) = (IZR 2796217 * bpow radix2 (-24))%R /\ sgn (litd 166667520999908447265625 24) = false.
Proof. apply lit_is. vm_compute. reflexivity. Qed.
Lemma litd_74953101575374603271484375_27 : isfin (litd 74953101575374603271484375 27) = true /\ val (litd 74953101575374603271484375 27) = (IZR 10060035 * bpow radix2 (-27))%R /\ sgn (litd 74953101575374603271484375 27) = false.
Proof. apply lit_is. vm_compute. reflexivity. Qed.
Lemma litd_454690195620059967041015625_28 : isfin (litd 454690195620059967041015625 28) = true /\ val (litd 454690195620059967041015625 28) = (IZR 12205497 * bpow radix2 (-28))%R /\ sgn (litd 454690195620059967041015625 28) = false.
Proof. apply lit_is. vm_compute. reflexivity. Qed.
Lemma litd_2418550290167331695556640625_29 : isfin (litd 2418550290167331695556640625 29) = true /\ val (litd 2418550290167331695556640625 29) = (IZR 12984493 * bpow radix2 (-29))%R /\ sgn (litd 2418550290167331695556640625 29) = false.
Proof. apply lit_is. vm_compute. reflexivity. Qed.
Lemma litd_421570129692554473876953125_28 : isfin (litd 421570129692554473876953125 28) = true /\ val (litd 421570129692554473876953125 28) = (IZR 11316437 * bpow radix2 (-28))%R /\ sgn (litd 421570129692554473876953125 28) = false.
Proof. apply lit_is. vm_compute. reflexivity. Qed.
Lemma litd_157079637050628662109375_23 : isfin (litd 157079637050628662109375 23) = true /\ val (litd 157079637050628662109375 23) = (IZR 13176795 * bpow radix2 (-23))%R /\ sgn (litd 157079637050628662109375 23) = false.
Proof. apply lit_is. vm_compute. reflexivity. Qed.
Lemma litd_31415927410125732421875_22 : isfin (litd 31415927410125732421875 22) = true /\ val (litd 31415927410125732421875 22) = (IZR 13176795 * bpow radix2 (-22))%R /\ sgn (litd 31415927410125732421875 22) = false.
Proof. apply lit_is. vm_compute. reflexivity. Qed.
Lemma litd_78539816339744830961566084581987572104929234984377_50 : isfin (litd 78539816339744830961566084581987572104929234984377 50) = true /\ val (litd 78539816339744830961566084581987572104929234984377 50) = (IZR 13176795 * bpow radix2 (-24))%R /\ sgn (litd 78539816339744830961566084581987572104929234984377 50) = false.
Proof. apply lit_is. vm_compute. reflexivity. Qed.
Lemma litd_157079632679489661923132169163975144209858469968754_50 : isfin (litd 157079632679489661923132169163975144209858469968754 50) = true /\ val (litd 157079632679489661923132169163975144209858469968754 50) = (IZR 13176795 * bpow radix2 (-23))%R /\ sgn (litd 157079632679489661923132169163975144209858469968754 50) = false.
Proof. apply lit_is. vm_compute. reflexivity. Qed.
Lemma litd_41421356237309504880168872420969807856967187537695_50 : isfin (litd 41421356237309504880168872420969807856967187537695 50) = true /\ val (litd 41421356237309504880168872420969807856967187537695 50) = (IZR 13898701 * bpow radix2 (-25))%R /\ sgn (litd 41421356237309504880168872420969807856967187537695 50) = false.
Proof. apply lit_is. vm_compute. reflexivity. Qed.
Lemma litd_241421356237309504880168872420969807856967187537698_50 : isfin (litd 241421356237309504880168872420969807856967187537698 50) = true /\ val (litd 241421356237309504880168872420969807856967187537698 50) = (IZR 5062973 * bpow radix2 (-21))%R /\ sgn (litd 241421356237309504880168872420969807856967187537698 50) = false.
Proof. apply lit_is. vm_compute. reflexivity. Qed.
Lemma litd_333329498767852783203125_24 : isfin (litd 333329498767852783203125 24) = true /\ val (litd 333329498767852783203125 24) = (IZR 5592341 * bpow radix2 (-24))%R /\ sgn (litd 333329498767852783203125 24) = false.
Proof. apply lit_is. vm_compute. reflexivity. Qed.
Lemma litd_19977732002735137939453125_26 : isfin (litd 19977732002735137939453125 26) = true /\ val (litd 19977732002735137939453125 26) = (IZR 13406829 * bpow radix2 (-26))%R /\ sgn (litd 19977732002735137939453125 26) = false.
Proof. apply lit_is. vm_compute. reflexivity. Qed.
Lemma litd_1387787759304046630859375_25 : isfin (litd 1387787759304046630859375 25) = true /\ val (litd 1387787759304046630859375 25) = (IZR 4656643 * bpow radix2 (-25))%R /\ sgn (litd 1387787759304046630859375 25) = false.
Proof. apply lit_is. vm_compute. reflexivity. Qed.
Lemma litd_8054284751415252685546875_26 : isfin (litd 8054284751415252685546875 26) = true /\ val (litd 8054284751415252685546875 26) = (IZR 5405139 * bpow radix2 (-26))%R /\ sgn (litd 8054284751415252685546875 26) = false.
Proof. apply lit_is. vm_compute. reflexivity. Qed.
Lemma litf_2_0 : isfin (litf 2 0) = true /\ val (litf 2 0) = (IZR 1 * bpow radix2 (1))%R /\ sgn (litf 2 0) = false.
Proof. apply lit_is. vm_compute. reflexivity. Qed.
Lemma litf_22_0 : isfin (litf 22 0) = true /\ val (litf 22 0) = (IZR 11 * bpow radix2 (1))%R /\ sgn (litf 22 0) = false.
Proof. apply lit_is. vm_compute. reflexivity. Qed.
Lemma litf_625_3 : isfin (litf 625 3) = true /\ val (litf 625 3) = (IZR 5 * bpow radix2 (-3))%R /\ sgn (litf 625 3) = false.
Proof. apply lit_is. vm_compute. reflexivity. Qed.
Lemma litd_570498872745_14 : isfin (litd 570498872745 14) = true /\ val (litd 570498872745 14) = (IZR 6125685 * bpow radix2 (-30))%R /\ sgn (litd 570498872745 14) = false.
Proof. apply lit_is. vm_compute. reflexivity. Qed.
Lemma litd_206390887954_13 : isfin (litd 206390887954 13) = true /\ val (litd 206390887954 13) = (IZR 5540263 * bpow radix2 (-28))%R /\ sgn (litd 206390887954 13) = false.
Proof. apply lit_is. vm_compute. reflexivity. Qed.
Lemma litd_537397155531_13 : isfin (litd 537397155531 13) = true /\ val (litd 537397155531 13) = (IZR 14425645 * bpow radix2 (-28))%R /\ sgn (litd 537397155531 13) = false.
Proof. apply lit_is. vm_compute. reflexivity. Qed.
Lemma litd_133314422036_12 : isfin (litd 133314422036 12) = true /\ val (litd 133314422036 12) = (IZR 8946579 * bpow radix2 (-26))%R /\ sgn (litd 133314422036 12) = false.
Proof. apply lit_is. vm_compute. reflexivity. Qed.
Lemma litd_333332819422_12 : isfin (litd 333332819422 12) = true /\ val (litd 333332819422 12) = (IZR 11184793 * bpow radix2 (-25))%R /\ sgn (litd 333332819422 12) = false.
Proof. apply lit_is. vm_compute. reflexivity. Qed.
Lemma litd_83333333333_12 : isfin (litd 83333333333 12) = true /\ val (litd 83333333333 12) = (IZR 11184811 * bpow radix2 (-27))%R /\ sgn (litd 83333333333 12) = false.
Proof. apply lit_is. vm_compute. reflexivity. Qed.
Lemma litd_22727272727_13 : isfin (litd 22727272727 13) = true /\ val (litd 22727272727 13) = (IZR 9761289 * bpow radix2 (-32))%R /\ sgn (litd 22727272727 13) = false.
Proof. apply lit_is. vm_compute. reflexivity. Qed.
Lemma litd_475_2 : isfin (litd 475 2) = true /\ val (litd 475 2) = (IZR 19 * bpow radix2 (-2))%R /\ sgn (litd 475 2) = false.
Proof. apply lit_is. vm_compute. reflexivity. Qed.
Lemma litd_5_2 : isfin (litd 5 2) = true /\ val (litd 5 2) = (IZR 13421773 * bpow radix2 (-28))%R /\ sgn (litd 5 2) = false.
Proof. apply lit_is. vm_compute. reflexivity. Qed.
Lemma val_litf_144269504088896341_17 : val (litf 144269504088896341 17) = (IZR 12102203 / IZR 8388608)%R.
Proof. rewrite (proj1 (proj2 litf_144269504088896341_17)). reflexivity. Qed.
#[global] Hint Rewrite val_litf_144269504088896341_17 : lits.
Lemma val_litf_693359375_9 : val (litf 693359375 9) = (IZR 355 / IZR 512)%R.
Proof. rewrite (proj1 (proj2 litf_693359375_9)). reflexivity. Qed.
#[global] Hint Rewrite val_litf_693359375_9 : lits.
Lemma val_litf_212194440_12 : val (litf 212194440 12) = (IZR 14581891 / IZR 68719476736)%R.
Proof. rewrite (proj1 (proj2 litf_212194440_12)). reflexivity. Qed.
#[global] Hint Rewrite val_litf_212194440_12 : lits.
Lemma val_litf_100000035762786865234375_23 : val (litf 100000035762786865234375 23) = (IZR 8388611 / IZR 8388608)%R.
Proof. rewrite (proj1 (proj2 litf_100000035762786865234375_23)). reflexivity. Qed.
#[global] Hint Rewrite val_litf_100000035762786865234375_23 : lits.
Lemma val_litf_4999996721744537353515625_25 : val (litf 4999996721744537353515625 25) = (IZR 16777205 / IZR 33554432)%R.
Proof. rewrite (proj1 (proj2 litf_4999996721744537353515625_25)). reflexivity. Qed.
#[global] Hint Rewrite val_litf_4999996721744537353515625_25 : lits.
Lemma val_litf_16665561497211456298828125_26 : val (litf 16665561497211456298828125 26) = (IZR 11184069 / IZR 67108864)%R.
Proof. rewrite (proj1 (proj2 litf_16665561497211456298828125_26)). reflexivity. Qed.
#[global] Hint Rewrite val_litf_16665561497211456298828125_26 : lits.
Lemma val_litf_4167006909847259521484375_26 : val (litf 4167006909847259521484375 26) = (IZR 2796431 / IZR 67108864)%R.
Proof. rewrite (proj1 (proj2 litf_4167006909847259521484375_26)). reflexivity. Qed.
#[global] Hint Rewrite val_litf_4167006909847259521484375_26 : lits.
Lemma val_litf_8420792408287525177001953125_30 : val (litf 8420792408287525177001953125 30) = (IZR 9041757 / IZR 1073741824)%R.
Proof. rewrite (proj1 (proj2 litf_8420792408287525177001953125_30)). reflexivity. Qed.
#[global] Hint Rewrite val_litf_8420792408287525177001953125_30 : lits.
Lemma val_litf_1386119984090328216552734375_30 : val (litf 1386119984090328216552734375 30) = (IZR 1488335 / IZR 1073741824)%R.
Proof. rewrite (proj1 (proj2 litf_1386119984090328216552734375_30)). reflexivity. Qed.
#[global] Hint Rewrite val_litf_1386119984090328216552734375_30 : lits.
Lemma val_litf_8872283905206835_14 : val (litf 8872283905206835 14) = (IZR 1453635 / IZR 16384)%R.
Proof. rewrite (proj1 (proj2 litf_8872283905206835_14)). reflexivity. Qed.
#[global] Hint Rewrite val_litf_8872283905206835_14 : lits.
Lemma val_litf_880_1 : val (litf 880 1) = (IZR 88)%R.
Proof. rewrite (proj1 (proj2 litf_880_1)). rewrite <- (IZR_Zpower radix2) by discriminate. rewrite <- mult_IZR. reflexivity. Qed.
#[global] Hint Rewrite val_litf_880_1 : lits.
Lemma val_litf_707106781186547524_18 : val (litf 707106781186547524 18) = (IZR 11863283 / IZR 16777216)%R.
Proof. rewrite (proj1 (proj2 litf_707106781186547524_18)). reflexivity. Qed.
#[global] Hint Rewrite val_litf_707106781186547524_18 : lits.
Lemma val_litd_70376836292_12 : val (litd 70376836292 12) = (IZR 9445819 / IZR 134217728)%R.
Proof. rewrite (proj1 (proj2 litd_70376836292_12)). reflexivity. Qed.
#[global] Hint Rewrite val_litd_70376836292_12 : lits.
Lemma val_litd_11514610310_11 : val (litd 11514610310 11) = (IZR 1931831 / IZR 16777216)%R.
Proof. rewrite (proj1 (proj2 litd_11514610310_11)). reflexivity. Qed.
#[global] Hint Rewrite val_litd_11514610310_11 : lits.
Lemma val_litd_11676998740_11 : val (litd 11676998740 11) = (IZR 7836301 / IZR 67108864)%R.
Proof. rewrite (proj1 (proj2 litd_11676998740_11)). reflexivity. Qed.
#[global] Hint Rewrite val_litd_11676998740_11 : lits.
Lemma val_litd_12420140846_11 : val (litd 12420140846 11) = (IZR 16670031 / IZR 134217728)%R.
Proof. rewrite (proj1 (proj2 litd_12420140846_11)). reflexivity. Qed.
#[global] Hint Rewrite val_litd_12420140846_11 : lits.
Lemma val_litd_14249322787_11 : val (litd 14249322787 11) = (IZR 9562559 / IZR 67108864)%R.
Proof. rewrite (proj1 (proj2 litd_14249322787_11)). reflexivity. Qed.
#[global] Hint Rewrite val_litd_14249322787_11 : lits.
Lemma val_litd_16668057665_11 : val (litd 16668057665 11) = (IZR 699109 / IZR 4194304)%R.
Proof. rewrite (proj1 (proj2 litd_16668057665_11)). reflexivity. Qed.
#[global] Hint Rewrite val_litd_16668057665_11 : lits.
Lemma val_litd_20000714765_11 : val (litd 20000714765 11) = (IZR 3355563 / IZR 16777216)%R.
Proof. rewrite (proj1 (proj2 litd_20000714765_11)). reflexivity. Qed.
#[global] Hint Rewrite val_litd_20000714765_11 : lits.
Lemma val_litd_24999993993_11 : val (litd 24999993993 11) = (IZR 4194303 / IZR 16777216)%R.
Proof. rewrite (proj1 (proj2 litd_24999993993_11)). reflexivity. Qed.
#[global] Hint Rewrite val_litd_24999993993_11 : lits.
Lemma val_litd_33333331174_11 : val (litd 33333331174 11) = (IZR 5592405 / IZR 16777216)%R.
Proof. rewrite (proj1 (proj2 litd_33333331174_11)). reflexivity. Qed.
#[global] Hint Rewrite val_litd_33333331174_11 : lits.
Lemma val_litd_212194440_12 : val (litd 212194440 12) = (IZR 14581891 / IZR 68719476736)%R.
Proof. rewrite (proj1 (proj2 litd_212194440_12)). reflexivity. Qed.
#[global] Hint Rewrite val_litd_212194440_12 : lits.
Lemma val_litd_5_1 : val (litd 5 1) = (IZR 1 / IZR 2)%R.
Proof. rewrite (proj1 (proj2 litd_5_1)). reflexivity. Qed.
#[global] Hint Rewrite val_litd_5_1 : lits.
Lemma val_litd_693359375_9 : val (litd 693359375 9) = (IZR 355 / IZR 512)%R.
Proof. rewrite (proj1 (proj2 litd_693359375_9)). reflexivity. Qed.
#[global] Hint Rewrite val_litd_693359375_9 : lits.
Lemma val_litd_127323954473516268615107010698011489627567716592367_50 : val (litd 127323954473516268615107010698011489627567716592367 50) = (IZR 10680707 / IZR 8388608)%R.
Proof. rewrite (proj1 (proj2 litd_127323954473516268615107010698011489627567716592367_50)). reflexivity. Qed.
#[global] Hint Rewrite val_litd_127323954473516268615107010698011489627567716592367_50 : lits.
Lemma val_litd_78515625_8 : val (litd 78515625 8) = (IZR 201 / IZR 256)%R.
Proof. rewrite (proj1 (proj2 litd_78515625_8)). reflexivity. Qed.
#[global] Hint Rewrite val_litd_78515625_8 : lits.
Lemma val_litd_24187564849853515625_23 : val (litd 24187564849853515625 23) = (IZR 2029 / IZR 8388608)%R.
Proof. rewrite (proj1 (proj2 litd_24187564849853515625_23)). reflexivity. Qed.
#[global] Hint Rewrite val_litd_24187564849853515625_23 : lits.
Lemma val_litd_377489497744594108_25 : val (litd 377489497744594108 25) = (IZR 10625385 / IZR 281474976710656)%R.
Proof. rewrite (proj1 (proj2 litd_377489497744594108_25)). reflexivity. Qed.
#[global] Hint Rewrite val_litd_377489497744594108_25 : lits.
Lemma val_litd_2443315711809948_20 : val (litd 2443315711809948 20) = (IZR 6716135 / IZR 274877906944)%R.
Proof. rewrite (proj1 (proj2 litd_2443315711809948_20)). reflexivity. Qed.
#[global] Hint Rewrite val_litd_2443315711809948_20 : lits.
Lemma val_litd_1388731625493765_18 : val (litd 1388731625493765 18) = (IZR 5964557 / IZR 4294967296)%R.
Proof. rewrite (proj1 (proj2 litd_1388731625493765_18)). reflexivity. Qed.
#[global] Hint Rewrite val_litd_1388731625493765_18 : lits.
Lemma val_litd_4166664568298827_17 : val (litd 4166664568298827 17) = (IZR 11184805 / IZR 268435456)%R.
Proof. rewrite (proj1 (proj2 litd_4166664568298827_17)). reflexivity. Qed.
#[global] Hint Rewrite val_litd_4166664568298827_17 : lits.
Lemma val_litf_5_1 : val (litf 5 1) = (IZR 1 / IZR 2)%R.
Proof. rewrite (proj1 (proj2 litf_5_1)). reflexivity. Qed.
#[global] Hint Rewrite val_litf_5_1 : lits.
Lemma val_litd_19515295891_14 : val (litd 19515295891 14) = (IZR 13410809 / IZR 68719476736)%R.
Proof. rewrite (proj1 (proj2 litd_19515295891_14)). reflexivity. Qed.
#[global] Hint Rewrite val_litd_19515295891_14 : lits.
Lemma val_litd_83321608736_13 : val (litd 83321608736 13) = (IZR 4473295 / IZR 536870912)%R.
Proof. rewrite (proj1 (proj2 litd_83321608736_13)). reflexivity. Qed.
#[global] Hint Rewrite val_litd_83321608736_13 : lits.
Lemma val_litd_16666654611_11 : val (litd 16666654611 11) = (IZR 11184803 / IZR 67108864)%R.
Proof. rewrite (proj1 (proj2 litd_16666654611_11)). reflexivity. Qed.
#[global] Hint Rewrite val_litd_16666654611_11 : lits.
Lemma val_litd_3333315551280975341796875_25 : val (litd 3333315551280975341796875 25) = (IZR 11184751 / IZR 33554432)%R.
Proof. rewrite (proj1 (proj2 litd_3333315551280975341796875_25)). reflexivity. Qed.
#[global] Hint Rewrite val_litd_3333315551280975341796875_25 : lits.
Lemma val_litd_1333882510662078857421875_25 : val (litd 1333882510662078857421875 25) = (IZR 4475767 / IZR 33554432)%R.
Proof. rewrite (proj1 (proj2 litd_1333882510662078857421875_25)). reflexivity. Qed.
#[global] Hint Rewrite val_litd_1333882510662078857421875_25 : lits.
Lemma val_litd_53409568965435028076171875_27 : val (litd 53409568965435028076171875 27) = (IZR 7168511 / IZR 134217728)%R.
Proof. rewrite (proj1 (proj2 litd_53409568965435028076171875_27)). reflexivity. Qed.
#[global] Hint Rewrite val_litd_53409568965435028076171875_27 : lits.
Lemma val_litd_2443529665470123291015625_26 : val (litd 2443529665470123291015625 26) = (IZR 1639825 / IZR 67108864)%R.
Proof. rewrite (proj1 (proj2 litd_2443529665470123291015625_26)). reflexivity. Qed.
#[global] Hint Rewrite val_litd_2443529665470123291015625_26 : lits.
Lemma val_litd_31127030961215496063232421875_31 : val (litd 31127030961215496063232421875 31) = (IZR 6684479 / IZR 2147483648)%R.
Proof. rewrite (proj1 (proj2 litd_31127030961215496063232421875_31)). reflexivity. Qed.
#[global] Hint Rewrite val_litd_31127030961215496063232421875_31 : lits.
Lemma val_litd_93892104923725128173828125_28 : val (litd 93892104923725128173828125 28) = (IZR 2520397 / IZR 268435456)%R.
Proof. rewrite (proj1 (proj2 litd_93892104923725128173828125_28)). reflexivity. Qed.
#[global] Hint Rewrite val_litd_93892104923725128173828125_28 : lits.
Lemma val_litd_10_1 : val (litd 10 1) = (IZR 1)%R.
Proof. rewrite (proj1 (proj2 litd_10_1)). rewrite <- (IZR_Zpower radix2) by discriminate. rewrite <- mult_IZR. reflexivity. Qed.
#[global] Hint Rewrite val_litd_10_1 : lits.
Lemma val_litd_166667520999908447265625_24 : val (litd 166667520999908447265625 24) = (IZR 2796217 / IZR 16777216)%R.
Proof. rewrite (proj1 (proj2 litd_166667520999908447265625_24)). reflexivity. Qed.
#[global] Hint Rewrite val_litd_166667520999908447265625_24 : lits.
Lemma val_litd_74953101575374603271484375_27 : val (litd 74953101575374603271484375 27) = (IZR 10060035 / IZR 134217728)%R.
Proof. rewrite (proj1 (proj2 litd_74953101575374603271484375_27)). reflexivity. Qed.
#[global] Hint Rewrite val_litd_74953101575374603271484375_27 : lits.
Lemma val_litd_454690195620059967041015625_28 : val (litd 454690195620059967041015625 28) = (IZR 12205497 / IZR 268435456)%R.
Proof. rewrite (proj1 (proj2 litd_454690195620059967041015625_28)). reflexivity. Qed.
#[global] Hint Rewrite val_litd_454690195620059967041015625_28 : lits.
Lemma val_litd_2418550290167331695556640625_29 : val (litd 2418550290167331695556640625 29) = (IZR 12984493 / IZR 536870912)%R.
Proof. rewrite (proj1 (proj2 litd_2418550290167331695556640625_29)). reflexivity. Qed.
#[global] Hint Rewrite val_litd_2418550290167331695556640625_29 : lits.
Lemma val_litd_421570129692554473876953125_28 : val (litd 421570129692554473876953125 28) = (IZR 11316437 / IZR 268435456)%R.
Proof. rewrite (proj1 (proj2 litd_421570129692554473876953125_28)). reflexivity. Qed.
#[global] Hint Rewrite val_litd_421570129692554473876953125_28 : lits.
Lemma val_litd_157079637050628662109375_23 : val (litd 157079637050628662109375 23) = (IZR 13176795 / IZR 8388608)%R.
Proof. rewrite (proj1 (proj2 litd_157079637050628662109375_23)). reflexivity. Qed.
#[global] Hint Rewrite val_litd_157079637050628662109375_23 : lits.
Lemma val_litd_31415927410125732421875_22 : val (litd 31415927410125732421875 22) = (IZR 13176795 / IZR 4194304)%R.
Proof. rewrite (proj1 (proj2 litd_31415927410125732421875_22)). reflexivity. Qed.
#[global] Hint Rewrite val_litd_31415927410125732421875_22 : lits.
Lemma val_litd_78539816339744830961566084581987572104929234984377_50 : val (litd 78539816339744830961566084581987572104929234984377 50) = (IZR 13176795 / IZR 16777216)%R.
Proof. rewrite (proj1 (proj2 litd_78539816339744830961566084581987572104929234984377_50)). reflexivity. Qed.
#[global] Hint Rewrite val_litd_78539816339744830961566084581987572104929234984377_50 : lits.
Lemma val_litd_157079632679489661923132169163975144209858469968754_50 : val (litd 157079632679489661923132169163975144209858469968754 50) = (IZR 13176795 / IZR 8388608)%R.
Proof. rewrite (proj1 (proj2 litd_157079632679489661923132169163975144209858469968754_50)). reflexivity. Qed.
#[global] Hint Rewrite val_litd_157079632679489661923132169163975144209858469968754_50 : lits.
Lemma val_litd_41421356237309504880168872420969807856967187537695_50 : val (litd 41421356237309504880168872420969807856967187537695 50) = (IZR 13898701 / IZR 33554432)%R.
Proof. rewrite (proj1 (proj2 litd_41421356237309504880168872420969807856967187537695_50)). reflexivity. Qed.
#[global] Hint Rewrite val_litd_41421356237309504880168872420969807856967187537695_50 : lits.
Lemma val_litd_241421356237309504880168872420969807856967187537698_50 : val (litd 241421356237309504880168872420969807856967187537698 50) = (IZR 5062973 / IZR 2097152)%R.
Proof. rewrite (proj1 (proj2 litd_241421356237309504880168872420969807856967187537698_50)). reflexivity. Qed.
#[global] Hint Rewrite val_litd_241421356237309504880168872420969807856967187537698_50 : lits.
Lemma val_litd_333329498767852783203125_24 : val (litd 333329498767852783203125 24) = (IZR 5592341 / IZR 16777216)%R.
Proof. rewrite (proj1 (proj2 litd_333329498767852783203125_24)). reflexivity. Qed.
#[global] Hint Rewrite val_litd_333329498767852783203125_24 : lits.
Lemma val_litd_19977732002735137939453125_26 : val (litd 19977732002735137939453125 26) = (IZR 13406829 / IZR 67108864)%R.
Proof. rewrite (proj1 (proj2 litd_19977732002735137939453125_26)). reflexivity. Qed.
#[global] Hint Rewrite val_litd_19977732002735137939453125_26 : lits.
Lemma val_litd_1387787759304046630859375_25 : val (litd 1387787759304046630859375 25) = (IZR 4656643 / IZR 33554432)%R.
Proof. rewrite (proj1 (proj2 litd_1387787759304046630859375_25)). reflexivity. Qed.
#[global] Hint Rewrite val_litd_1387787759304046630859375_25 : lits.
Lemma val_litd_8054284751415252685546875_26 : val (litd 8054284751415252685546875 26) = (IZR 5405139 / IZR 67108864)%R.
Proof. rewrite (proj1 (proj2 litd_8054284751415252685546875_26)). reflexivity. Qed.
#[global] Hint Rewrite val_litd_8054284751415252685546875_26 : lits.
Lemma val_litf_2_0 : val (litf 2 0) = (IZR 2)%R.
Proof. rewrite (proj1 (proj2 litf_2_0)). rewrite <- (IZR_Zpower radix2) by discriminate. rewrite <- mult_IZR. reflexivity. Qed.
#[global] Hint Rewrite val_litf_2_0 : lits.
Lemma val_litf_22_0 : val (litf 22 0) = (IZR 22)%R.
Proof. rewrite (proj1 (proj2 litf_22_0)). rewrite <- (IZR_Zpower radix2) by discriminate. rewrite <- mult_IZR. reflexivity. Qed.
#[global] Hint Rewrite val_litf_22_0 : lits.
Lemma val_litf_625_3 : val (litf 625 3) = (IZR 5 / IZR 8)%R.
Proof. rewrite (proj1 (proj2 litf_625_3)). reflexivity. Qed.
#[global] Hint Rewrite val_litf_625_3 : lits.
Lemma val_litd_570498872745_14 : val (litd 570498872745 14) = (IZR 6125685 / IZR 1073741824)%R.
Proof. rewrite (proj1 (proj2 litd_570498872745_14)). reflexivity. Qed.
#[global] Hint Rewrite val_litd_570498872745_14 : lits.
Lemma val_litd_206390887954_13 : val (litd 206390887954 13) = (IZR 5540263 / IZR 268435456)%R.
Proof. rewrite (proj1 (proj2 litd_206390887954_13)). reflexivity. Qed.
#[global] Hint Rewrite val_litd_206390887954_13 : lits.
Lemma val_litd_537397155531_13 : val (litd 537397155531 13) = (IZR 14425645 / IZR 268435456)%R.
Proof. rewrite (proj1 (proj2 litd_537397155531_13)). reflexivity. Qed.
#[global] Hint Rewrite val_litd_537397155531_13 : lits.
Lemma val_litd_133314422036_12 : val (litd 133314422036 12) = (IZR 8946579 / IZR 67108864)%R.
Proof. rewrite (proj1 (proj2 litd_133314422036_12)). reflexivity. Qed.
#[global] Hint Rewrite val_litd_133314422036_12 : lits.
Lemma val_litd_333332819422_12 : val (litd 333332819422 12) = (IZR 11184793 / IZR 33554432)%R.
Proof. rewrite (proj1 (proj2 litd_333332819422_12)). reflexivity. Qed.
#[global] Hint Rewrite val_litd_333332819422_12 : lits.
Lemma val_litd_83333333333_12 : val (litd 83333333333 12) = (IZR 11184811 / IZR 134217728)%R.
Proof. rewrite (proj1 (proj2 litd_83333333333_12)). reflexivity. Qed.
#[global] Hint Rewrite val_litd_83333333333_12 : lits.
Lemma val_litd_22727272727_13 : val (litd 22727272727 13) = (IZR 9761289 / IZR 4294967296)%R.
Proof. rewrite (proj1 (proj2 litd_22727272727_13)). reflexivity. Qed.
#[global] Hint Rewrite val_litd_22727272727_13 : lits.
Lemma val_litd_475_2 : val (litd 475 2) = (IZR 19 / IZR 4)%R.
Proof. rewrite (proj1 (proj2 litd_475_2)). reflexivity. Qed.
#[global] Hint Rewrite val_litd_475_2 : lits.
Lemma val_litd_5_2 : val (litd 5 2) = (IZR 13421773 / IZR 268435456)%R.
Proof. rewrite (proj1 (proj2 litd_5_2)). reflexivity. Qed.
#[global] Hint Rewrite val_litd_5_2 : lits.
