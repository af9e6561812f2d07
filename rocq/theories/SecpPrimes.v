(** The orders of the field of secp256k1 and of the curve are prime: certificates for the checker of Primes.v. *)
From Coq Require Import ZArith Znumtheory List.
From Verif Require Import Primes.
Import ListNotations.
Local Open Scope Z_scope.

Lemma prime_29 : prime 29.
Proof. apply trial_prime. vm_compute. reflexivity. Qed.
Lemma prime_53 : prime 53.
Proof. apply trial_prime. vm_compute. reflexivity. Qed.
Lemma prime_7 : prime 7.
Proof. apply trial_prime. vm_compute. reflexivity. Qed.
Lemma prime_107590001 : prime 107590001.
Proof.
  apply (certified_prime 107590001
    39015280
    (cut 107590001 2678969917 58)
    [(53, 75712971); (29, 100085220); (7, 4923006)]).
  - exact (cut_spec 107590001 2678969917 58).
  - constructor; [exact prime_53|]. constructor; [exact prime_29|]. constructor; [exact prime_7|]. constructor.
  - vm_compute. reflexivity.
Qed.
Lemma prime_96557 : prime 96557.
Proof. apply trial_prime. vm_compute. reflexivity. Qed.
Lemma prime_7240687 : prime 7240687.
Proof. apply trial_prime. vm_compute. reflexivity. Qed.
Lemma prime_255515_128bit : prime 255515944373312847190720520512484175977.
Proof.
  apply (certified_prime 255515944373312847190720520512484175977
    49180540851747490927367427235911788886
    (cut 255515944373312847190720520512484175977 7250715536914885693087887870059630061120 260)
    [(107590001, 235081362755335172132203715226758066727); (7240687, 175544394104025381149509263364095140941); (96557, 52333299885033245219942804006191421971)]).
  - exact (cut_spec 255515944373312847190720520512484175977 7250715536914885693087887870059630061120 260).
  - constructor; [exact prime_107590001|]. constructor; [exact prime_7240687|]. constructor; [exact prime_96557|]. constructor.
  - vm_compute. reflexivity.
Qed.
Lemma prime_205115_237bit : prime 205115282021455665897114700593932402728804164701536103180137503955397371.
Proof.
  apply (certified_prime 205115282021455665897114700593932402728804164701536103180137503955397371
    53072002638256206696760401718638995221936714922431175139555783581918754
    (cut 205115282021455665897114700593932402728804164701536103180137503955397371 3804870753108303369541253172738623986785747010925362264544393066277119818 478)
    [(255515944373312847190720520512484175977, 81475874003799270243122483189086420723726815346591292526890606927317739)]).
  - exact (cut_spec 205115282021455665897114700593932402728804164701536103180137503955397371 3804870753108303369541253172738623986785747010925362264544393066277119818 478).
  - constructor; [exact prime_255515_128bit|]. constructor.
  - vm_compute. reflexivity.
Qed.
Lemma prime_field : prime 115792089237316195423570985008687907853269984665640564039457584007908834671663.
Proof.
  apply (certified_prime 115792089237316195423570985008687907853269984665640564039457584007908834671663
    30133174243114333125352536507925183895021889065932097717961225114769139489296
    (cut_high 115792089237316195423570985008687907853269984665640564039457584007908834671663 256)
    [(205115282021455665897114700593932402728804164701536103180137503955397371, 38738227534097492269493948901333532538630784921480042032654553727346127695815)]).
  - exact (cut_high_spec 115792089237316195423570985008687907853269984665640564039457584007908834671663 256 ltac:(discriminate)).
  - constructor; [exact prime_205115_237bit|]. constructor.
  - vm_compute. reflexivity.
Qed.

(** The order of the curve is prime. *)
Lemma prime_1627771 : prime 1627771.
Proof. apply trial_prime. vm_compute. reflexivity. Qed.
Lemma prime_297159_39bit : prime 297159362677.
Proof.
  apply (certified_prime 297159362677
    114170894341
    (cut 297159362677 16273097488483 82)
    [(1627771, 44169280672)]).
  - exact (cut_spec 297159362677 16273097488483 82).
  - constructor; [exact prime_1627771|]. constructor.
  - vm_compute. reflexivity.
Qed.
Lemma prime_28181 : prime 28181.
Proof. apply trial_prime. vm_compute. reflexivity. Qed.
Lemma prime_545358713 : prime 545358713.
Proof.
  apply (certified_prime 545358713
    420071726
    (cut 545358713 33824973607 64)
    [(28181, 160797069)]).
  - exact (cut_spec 545358713 33824973607 64).
  - constructor; [exact prime_28181|]. constructor.
  - vm_compute. reflexivity.
Qed.
Lemma prime_290476_95bit : prime 29047611873442575647497758179.
Proof.
  apply (certified_prime 29047611873442575647497758179
    3760803794581138100624353411
    (cut 29047611873442575647497758179 864387993441300480965586681101 194)
    [(297159362677, 7881196461825673388358983901); (545358713, 9643653164146849936640551407)]).
  - exact (cut_spec 29047611873442575647497758179 864387993441300480965586681101 194).
  - constructor; [exact prime_297159_39bit|]. constructor; [exact prime_545358713|]. constructor.
  - vm_compute. reflexivity.
Qed.
Lemma prime_341948_109bit : prime 341948486974166000522343609283189.
Proof.
  apply (certified_prime 341948486974166000522343609283189
    291782875431971620014836968593543
    (cut 341948486974166000522343609283189 19710532210358520543749284832574515 222)
    [(29047611873442575647497758179, 230912421032721991545077801069578)]).
  - exact (cut_spec 341948486974166000522343609283189 19710532210358520543749284832574515 222).
  - constructor; [exact prime_290476_95bit|]. constructor.
  - vm_compute. reflexivity.
Qed.
Lemma prime_4681609 : prime 4681609.
Proof. apply trial_prime. vm_compute. reflexivity. Qed.
Lemma prime_85831 : prime 85831.
Proof. apply trial_prime. vm_compute. reflexivity. Qed.
Lemma prime_107361_57bit : prime 107361793816595537.
Proof.
  apply (certified_prime 107361793816595537
    18633754915179990
    (cut 107361793816595537 3095207216022338314 118)
    [(4681609, 44826003584452600); (85831, 89382073196192802)]).
  - exact (cut_spec 107361793816595537 3095207216022338314 118).
  - constructor; [exact prime_4681609|]. constructor; [exact prime_85831|]. constructor.
  - vm_compute. reflexivity.
Qed.
Lemma prime_order : prime 115792089237316195423570985008687907852837564279074904382605163141518161494337.
Proof.
  apply (certified_prime 115792089237316195423570985008687907852837564279074904382605163141518161494337
    60590664009762784969413538164049184824284701970427042789665164107484265300841
    (cut 115792089237316195423570985008687907852837564279074904382605163141518161494337 1852673427797059126777135760139006525659238480835299579140960077988929564568585 516)
    [(341948486974166000522343609283189, 57112704531168816596589732607440886458891436705097388389849158079043094771009); (107361793816595537, 75882924931766611973272472284568680993272073599073922898565096152986752117873)]).
  - exact (cut_spec 115792089237316195423570985008687907852837564279074904382605163141518161494337 1852673427797059126777135760139006525659238480835299579140960077988929564568585 516).
  - constructor; [exact prime_341948_109bit|]. constructor; [exact prime_107361_57bit|]. constructor.
  - vm_compute. reflexivity.
Qed.
