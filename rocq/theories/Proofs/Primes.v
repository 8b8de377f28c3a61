(** Primality certificates for the factors of the group orders (generated). *)
From Coq Require Import ZArith List Bool Lia Znumtheory.
From Verif Require Import Proofs.Lucas.
Open Scope Z_scope.

Lemma prime_2 : prime 2.
Proof. apply (prime_trial 3); [lia|vm_compute; reflexivity]. Qed.
Lemma prime_3 : prime 3.
Proof. apply (prime_trial 3); [lia|vm_compute; reflexivity]. Qed.
Lemma prime_1709 : prime 1709.
Proof. apply (prime_trial 43); [lia|vm_compute; reflexivity]. Qed.
Lemma prime_24859 : prime 24859.
Proof. apply (prime_trial 159); [lia|vm_compute; reflexivity]. Qed.
Lemma prime_13 : prime 13.
Proof. apply (prime_trial 5); [lia|vm_compute; reflexivity]. Qed.
Lemma prime_359 : prime 359.
Proof. apply (prime_trial 20); [lia|vm_compute; reflexivity]. Qed.
Lemma prime_7 : prime 7.
Proof. apply (prime_trial 4); [lia|vm_compute; reflexivity]. Qed.
Lemma prime_68477 : prime 68477.
Proof. apply (prime_trial 263); [lia|vm_compute; reflexivity]. Qed.
Lemma prime_958679 : prime 958679.
Proof.
  apply (lucas 958679 26 7 (Node (Node (Leaf 2 1) (Leaf 7 1)) (Leaf 68477 1))).
  - exact (Forall_cons _ prime_2 (Forall_cons _ prime_7 (Forall_cons _ prime_68477 (Forall_nil _)))).
  - vm_compute. reflexivity.
Qed.
Lemma prime_4129989133 : prime 4129989133.
Proof.
  apply (lucas 4129989133 38 5 (Node (Node (Node (Leaf 3 1) (Leaf 2 2)) (Leaf 359 1)) (Leaf 958679 1))).
  - exact (Forall_cons _ prime_3 (Forall_cons _ prime_2 (Forall_cons _ prime_359 (Forall_cons _ prime_958679 (Forall_nil _))))).
  - vm_compute. reflexivity.
Qed.
Lemma prime_17 : prime 17.
Proof. apply (prime_trial 6); [lia|vm_compute; reflexivity]. Qed.
Lemma prime_71 : prime 71.
Proof. apply (prime_trial 10); [lia|vm_compute; reflexivity]. Qed.
Lemma prime_5 : prime 5.
Proof. apply (prime_trial 4); [lia|vm_compute; reflexivity]. Qed.
Lemma prime_29 : prime 29.
Proof. apply (prime_trial 7); [lia|vm_compute; reflexivity]. Qed.
Lemma prime_241 : prime 241.
Proof. apply (prime_trial 17); [lia|vm_compute; reflexivity]. Qed.
Lemma prime_125803 : prime 125803.
Proof.
  apply (lucas 125803 23 3 (Node (Leaf 241 1) (Node (Node (Leaf 2 1) (Leaf 3 2)) (Leaf 29 1)))).
  - exact (Forall_cons _ prime_241 (Forall_cons _ prime_2 (Forall_cons _ prime_3 (Forall_cons _ prime_29 (Forall_nil _))))).
  - vm_compute. reflexivity.
Qed.
Lemma prime_2012849 : prime 2012849.
Proof.
  apply (lucas 2012849 27 3 (Node (Leaf 2 4) (Leaf 125803 1))).
  - exact (Forall_cons _ prime_2 (Forall_cons _ prime_125803 (Forall_nil _))).
  - vm_compute. reflexivity.
Qed.
Lemma prime_4025699 : prime 4025699.
Proof.
  apply (lucas 4025699 28 2 (Node (Leaf 2 1) (Leaf 2012849 1))).
  - exact (Forall_cons _ prime_2 (Forall_cons _ prime_2012849 (Forall_nil _))).
  - vm_compute. reflexivity.
Qed.
Lemma prime_80513981 : prime 80513981.
Proof.
  apply (lucas 80513981 33 2 (Node (Node (Leaf 2 2) (Leaf 5 1)) (Leaf 4025699 1))).
  - exact (Forall_cons _ prime_2 (Forall_cons _ prime_5 (Forall_cons _ prime_4025699 (Forall_nil _)))).
  - vm_compute. reflexivity.
Qed.
Lemma prime_5247740253619 : prime 5247740253619.
Proof.
  apply (lucas 5247740253619 49 2 (Node (Node (Leaf 71 1) (Node (Leaf 3 3) (Node (Leaf 2 1) (Leaf 17 1)))) (Leaf 80513981 1))).
  - exact (Forall_cons _ prime_71 (Forall_cons _ prime_3 (Forall_cons _ prime_2 (Forall_cons _ prime_17 (Forall_cons _ prime_80513981 (Forall_nil _)))))).
  - vm_compute. reflexivity.
Qed.
Lemma prime_1690502597179744445941507 : prime 1690502597179744445941507.
Proof.
  apply (lucas 1690502597179744445941507 87 2 (Node (Node (Node (Node (Leaf 2 1) (Leaf 3 1)) (Leaf 13 1)) (Leaf 4129989133 1)) (Leaf 5247740253619 1))).
  - exact (Forall_cons _ prime_2 (Forall_cons _ prime_3 (Forall_cons _ prime_13 (Forall_cons _ prime_4129989133 (Forall_cons _ prime_5247740253619 (Forall_nil _)))))).
  - vm_compute. reflexivity.
Qed.
Lemma prime_173 : prime 173.
Proof. apply (prime_trial 15); [lia|vm_compute; reflexivity]. Qed.
Lemma prime_294793 : prime 294793.
Proof.
  apply (lucas 294793 25 10 (Node (Leaf 173 1) (Node (Node (Leaf 3 1) (Leaf 2 3)) (Leaf 71 1)))).
  - exact (Forall_cons _ prime_173 (Forall_cons _ prime_3 (Forall_cons _ prime_2 (Forall_cons _ prime_71 (Forall_nil _))))).
  - vm_compute. reflexivity.
Qed.
Lemma prime_827 : prime 827.
Proof. apply (prime_trial 30); [lia|vm_compute; reflexivity]. Qed.
Lemma prime_2557 : prime 2557.
Proof. apply (prime_trial 52); [lia|vm_compute; reflexivity]. Qed.
Lemma prime_4229279 : prime 4229279.
Proof.
  apply (lucas 4229279 29 13 (Node (Node (Leaf 2 1) (Leaf 827 1)) (Leaf 2557 1))).
  - exact (Forall_cons _ prime_2 (Forall_cons _ prime_827 (Forall_cons _ prime_2557 (Forall_nil _)))).
  - vm_compute. reflexivity.
Qed.
Lemma prime_6091 : prime 6091.
Proof. apply (prime_trial 80); [lia|vm_compute; reflexivity]. Qed.
Lemma prime_5701177 : prime 5701177.
Proof.
  apply (lucas 5701177 29 7 (Node (Node (Leaf 13 1) (Node (Leaf 2 3) (Leaf 3 2))) (Leaf 6091 1))).
  - exact (Forall_cons _ prime_13 (Forall_cons _ prime_2 (Forall_cons _ prime_3 (Forall_cons _ prime_6091 (Forall_nil _))))).
  - vm_compute. reflexivity.
Qed.
Lemma prime_399082391 : prime 399082391.
Proof.
  apply (lucas 399082391 35 7 (Node (Node (Leaf 7 1) (Node (Leaf 2 1) (Leaf 5 1))) (Leaf 5701177 1))).
  - exact (Forall_cons _ prime_7 (Forall_cons _ prime_2 (Forall_cons _ prime_5 (Forall_cons _ prime_5701177 (Forall_nil _))))).
  - vm_compute. reflexivity.
Qed.
Lemma prime_757 : prime 757.
Proof. apply (prime_trial 29); [lia|vm_compute; reflexivity]. Qed.
Lemma prime_12149 : prime 12149.
Proof. apply (prime_trial 112); [lia|vm_compute; reflexivity]. Qed.
Lemma prime_31649 : prime 31649.
Proof. apply (prime_trial 179); [lia|vm_compute; reflexivity]. Qed.
Lemma prime_5239247429827 : prime 5239247429827.
Proof.
  apply (lucas 5239247429827 49 2 (Node (Leaf 31649 1) (Node (Leaf 12149 1) (Node (Node (Leaf 2 1) (Leaf 3 2)) (Leaf 757 1))))).
  - exact (Forall_cons _ prime_31649 (Forall_cons _ prime_12149 (Forall_cons _ prime_2 (Forall_cons _ prime_3 (Forall_cons _ prime_757 (Forall_nil _)))))).
  - vm_compute. reflexivity.
Qed.
Lemma prime_10427374428728808478656897599072717 : prime 10427374428728808478656897599072717.
Proof.
  apply (lucas 10427374428728808478656897599072717 120 2 (Node (Leaf 5239247429827 1) (Node (Leaf 399082391 1) (Node (Node (Leaf 2 2) (Leaf 294793 1)) (Leaf 4229279 1))))).
  - exact (Forall_cons _ prime_5239247429827 (Forall_cons _ prime_399082391 (Forall_cons _ prime_2 (Forall_cons _ prime_294793 (Forall_cons _ prime_4229279 (Forall_nil _)))))).
  - vm_compute. reflexivity.
Qed.
Lemma prime_11 : prime 11.
Proof. apply (prime_trial 5); [lia|vm_compute; reflexivity]. Qed.
Lemma prime_19 : prime 19.
Proof. apply (prime_trial 6); [lia|vm_compute; reflexivity]. Qed.
Lemma prime_10177 : prime 10177.
Proof. apply (prime_trial 102); [lia|vm_compute; reflexivity]. Qed.
Lemma prime_20921 : prime 20921.
Proof. apply (prime_trial 146); [lia|vm_compute; reflexivity]. Qed.
Lemma prime_125527 : prime 125527.
Proof.
  apply (lucas 125527 23 5 (Node (Node (Leaf 2 1) (Leaf 3 1)) (Leaf 20921 1))).
  - exact (Forall_cons _ prime_2 (Forall_cons _ prime_3 (Forall_cons _ prime_20921 (Forall_nil _)))).
  - vm_compute. reflexivity.
Qed.
Lemma prime_47737 : prime 47737.
Proof. apply (prime_trial 220); [lia|vm_compute; reflexivity]. Qed.
Lemma prime_859267 : prime 859267.
Proof.
  apply (lucas 859267 26 2 (Node (Node (Leaf 2 1) (Leaf 3 2)) (Leaf 47737 1))).
  - exact (Forall_cons _ prime_2 (Forall_cons _ prime_3 (Forall_cons _ prime_47737 (Forall_nil _)))).
  - vm_compute. reflexivity.
Qed.
Lemma prime_47 : prime 47.
Proof. apply (prime_trial 8); [lia|vm_compute; reflexivity]. Qed.
Lemma prime_1607 : prime 1607.
Proof. apply (prime_trial 42); [lia|vm_compute; reflexivity]. Qed.
Lemma prime_906349 : prime 906349.
Proof.
  apply (lucas 906349 26 2 (Node (Node (Node (Leaf 3 1) (Leaf 2 2)) (Leaf 47 1)) (Leaf 1607 1))).
  - exact (Forall_cons _ prime_3 (Forall_cons _ prime_2 (Forall_cons _ prime_47 (Forall_cons _ prime_1607 (Forall_nil _))))).
  - vm_compute. reflexivity.
Qed.
Lemma prime_79 : prime 79.
Proof. apply (prime_trial 10); [lia|vm_compute; reflexivity]. Qed.
Lemma prime_2508409 : prime 2508409.
Proof.
  apply (lucas 2508409 28 11 (Node (Node (Leaf 2 3) (Leaf 7 2)) (Node (Leaf 79 1) (Leaf 3 4)))).
  - exact (Forall_cons _ prime_2 (Forall_cons _ prime_7 (Forall_cons _ prime_79 (Forall_cons _ prime_3 (Forall_nil _))))).
  - vm_compute. reflexivity.
Qed.
Lemma prime_23 : prime 23.
Proof. apply (prime_trial 6); [lia|vm_compute; reflexivity]. Qed.
Lemma prime_18329 : prime 18329.
Proof. apply (prime_trial 137); [lia|vm_compute; reflexivity]. Qed.
Lemma prime_2529403 : prime 2529403.
Proof.
  apply (lucas 2529403 28 2 (Node (Node (Node (Leaf 2 1) (Leaf 3 1)) (Leaf 23 1)) (Leaf 18329 1))).
  - exact (Forall_cons _ prime_2 (Forall_cons _ prime_3 (Forall_cons _ prime_23 (Forall_cons _ prime_18329 (Forall_nil _))))).
  - vm_compute. reflexivity.
Qed.
Lemma prime_43 : prime 43.
Proof. apply (prime_trial 8); [lia|vm_compute; reflexivity]. Qed.
Lemma prime_97 : prime 97.
Proof. apply (prime_trial 11); [lia|vm_compute; reflexivity]. Qed.
Lemma prime_449 : prime 449.
Proof. apply (prime_trial 23); [lia|vm_compute; reflexivity]. Qed.
Lemma prime_609743 : prime 609743.
Proof.
  apply (lucas 609743 26 5 (Node (Leaf 449 1) (Node (Node (Leaf 2 1) (Leaf 7 1)) (Leaf 97 1)))).
  - exact (Forall_cons _ prime_449 (Forall_cons _ prime_2 (Forall_cons _ prime_7 (Forall_cons _ prime_97 (Forall_nil _))))).
  - vm_compute. reflexivity.
Qed.
Lemma prime_52437899 : prime 52437899.
Proof.
  apply (lucas 52437899 32 2 (Node (Node (Leaf 2 1) (Leaf 43 1)) (Leaf 609743 1))).
  - exact (Forall_cons _ prime_2 (Forall_cons _ prime_43 (Forall_cons _ prime_609743 (Forall_nil _)))).
  - vm_compute. reflexivity.
Qed.
Lemma prime_110573 : prime 110573.
Proof.
  apply (lucas 110573 23 3 (Node (Node (Leaf 11 1) (Node (Leaf 2 2) (Leaf 7 1))) (Leaf 359 1))).
  - exact (Forall_cons _ prime_11 (Forall_cons _ prime_2 (Forall_cons _ prime_7 (Forall_cons _ prime_359 (Forall_nil _))))).
  - vm_compute. reflexivity.
Qed.
Lemma prime_2653753 : prime 2653753.
Proof.
  apply (lucas 2653753 28 5 (Node (Node (Leaf 3 1) (Leaf 2 3)) (Leaf 110573 1))).
  - exact (Forall_cons _ prime_3 (Forall_cons _ prime_2 (Forall_cons _ prime_110573 (Forall_nil _)))).
  - vm_compute. reflexivity.
Qed.
Lemma prime_63690073 : prime 63690073.
Proof.
  apply (lucas 63690073 32 7 (Node (Node (Leaf 3 1) (Leaf 2 3)) (Leaf 2653753 1))).
  - exact (Forall_cons _ prime_3 (Forall_cons _ prime_2 (Forall_cons _ prime_2653753 (Forall_nil _)))).
  - vm_compute. reflexivity.
Qed.
Lemma prime_254760293 : prime 254760293.
Proof.
  apply (lucas 254760293 34 2 (Node (Leaf 2 2) (Leaf 63690073 1))).
  - exact (Forall_cons _ prime_2 (Forall_cons _ prime_63690073 (Forall_nil _))).
  - vm_compute. reflexivity.
Qed.
Lemma prime_983 : prime 983.
Proof. apply (prime_trial 33); [lia|vm_compute; reflexivity]. Qed.
Lemma prime_11003 : prime 11003.
Proof. apply (prime_trial 106); [lia|vm_compute; reflexivity]. Qed.
Lemma prime_237073 : prime 237073.
Proof.
  apply (lucas 237073 24 15 (Node (Leaf 449 1) (Node (Leaf 2 4) (Node (Leaf 3 1) (Leaf 11 1))))).
  - exact (Forall_cons _ prime_449 (Forall_cons _ prime_2 (Forall_cons _ prime_3 (Forall_cons _ prime_11 (Forall_nil _))))).
  - vm_compute. reflexivity.
Qed.
Lemma prime_3691 : prime 3691.
Proof. apply (prime_trial 62); [lia|vm_compute; reflexivity]. Qed.
Lemma prime_4999 : prime 4999.
Proof. apply (prime_trial 72); [lia|vm_compute; reflexivity]. Qed.
Lemma prime_405928799 : prime 405928799.
Proof.
  apply (lucas 405928799 35 22 (Node (Leaf 4999 1) (Node (Node (Leaf 2 1) (Leaf 11 1)) (Leaf 3691 1)))).
  - exact (Forall_cons _ prime_4999 (Forall_cons _ prime_2 (Forall_cons _ prime_11 (Forall_cons _ prime_3691 (Forall_nil _))))).
  - vm_compute. reflexivity.
Qed.
Lemma prime_107 : prime 107.
Proof. apply (prime_trial 12); [lia|vm_compute; reflexivity]. Qed.
Lemma prime_661 : prime 661.
Proof. apply (prime_trial 27); [lia|vm_compute; reflexivity]. Qed.
Lemma prime_93001 : prime 93001.
Proof. apply (prime_trial 306); [lia|vm_compute; reflexivity]. Qed.
Lemma prime_12048837557 : prime 12048837557.
Proof.
  apply (lucas 12048837557 40 2 (Node (Leaf 93001 1) (Node (Node (Leaf 2 2) (Leaf 7 2)) (Leaf 661 1)))).
  - exact (Forall_cons _ prime_93001 (Forall_cons _ prime_2 (Forall_cons _ prime_7 (Forall_cons _ prime_661 (Forall_nil _))))).
  - vm_compute. reflexivity.
Qed.
Lemma prime_5156902474397 : prime 5156902474397.
Proof.
  apply (lucas 5156902474397 49 2 (Node (Node (Leaf 2 2) (Leaf 107 1)) (Leaf 12048837557 1))).
  - exact (Forall_cons _ prime_2 (Forall_cons _ prime_107 (Forall_cons _ prime_12048837557 (Forall_nil _)))).
  - vm_compute. reflexivity.
Qed.
Lemma prime_1670836401704629 : prime 1670836401704629.
Proof.
  apply (lucas 1670836401704629 57 2 (Node (Node (Leaf 2 2) (Leaf 3 4)) (Leaf 5156902474397 1))).
  - exact (Forall_cons _ prime_2 (Forall_cons _ prime_3 (Forall_cons _ prime_5156902474397 (Forall_nil _)))).
  - vm_compute. reflexivity.
Qed.
Lemma prime_823 : prime 823.
Proof. apply (prime_trial 30); [lia|vm_compute; reflexivity]. Qed.
Lemma prime_41927 : prime 41927.
Proof. apply (prime_trial 206); [lia|vm_compute; reflexivity]. Qed.
Lemma prime_1593227 : prime 1593227.
Proof.
  apply (lucas 1593227 27 2 (Node (Node (Leaf 2 1) (Leaf 19 1)) (Leaf 41927 1))).
  - exact (Forall_cons _ prime_2 (Forall_cons _ prime_19 (Forall_cons _ prime_41927 (Forall_nil _)))).
  - vm_compute. reflexivity.
Qed.
Lemma prime_83 : prime 83.
Proof. apply (prime_trial 11); [lia|vm_compute; reflexivity]. Qed.
Lemma prime_379 : prime 379.
Proof. apply (prime_trial 21); [lia|vm_compute; reflexivity]. Qed.
Lemma prime_1637 : prime 1637.
Proof. apply (prime_trial 42); [lia|vm_compute; reflexivity]. Qed.
Lemma prime_229 : prime 229.
Proof. apply (prime_trial 17); [lia|vm_compute; reflexivity]. Qed.
Lemma prime_853 : prime 853.
Proof. apply (prime_trial 31); [lia|vm_compute; reflexivity]. Qed.
Lemma prime_639533339 : prime 639533339.
Proof.
  apply (lucas 639533339 36 2 (Node (Leaf 1637 1) (Node (Node (Leaf 2 1) (Leaf 229 1)) (Leaf 853 1)))).
  - exact (Forall_cons _ prime_1637 (Forall_cons _ prime_2 (Forall_cons _ prime_229 (Forall_cons _ prime_853 (Forall_nil _))))).
  - vm_compute. reflexivity.
Qed.
Lemma prime_65865678001877903 : prime 65865678001877903.
Proof.
  apply (lucas 65865678001877903 62 5 (Node (Node (Leaf 1637 1) (Node (Node (Leaf 2 1) (Leaf 83 1)) (Leaf 379 1))) (Leaf 639533339 1))).
  - exact (Forall_cons _ prime_1637 (Forall_cons _ prime_2 (Forall_cons _ prime_83 (Forall_cons _ prime_379 (Forall_cons _ prime_639533339 (Forall_nil _)))))).
  - vm_compute. reflexivity.
Qed.
Lemma prime_13818364434197438864469338081 : prime 13818364434197438864469338081.
Proof.
  apply (lucas 13818364434197438864469338081 100 3 (Node (Node (Node (Node (Leaf 5 1) (Leaf 2 5)) (Leaf 823 1)) (Leaf 1593227 1)) (Leaf 65865678001877903 1))).
  - exact (Forall_cons _ prime_5 (Forall_cons _ prime_2 (Forall_cons _ prime_823 (Forall_cons _ prime_1593227 (Forall_cons _ prime_65865678001877903 (Forall_nil _)))))).
  - vm_compute. reflexivity.
Qed.
Lemma prime_257 : prime 257.
Proof. apply (prime_trial 18); [lia|vm_compute; reflexivity]. Qed.
Lemma prime_65537 : prime 65537.
Proof. apply (prime_trial 258); [lia|vm_compute; reflexivity]. Qed.
Lemma prime_463 : prime 463.
Proof. apply (prime_trial 23); [lia|vm_compute; reflexivity]. Qed.
Lemma prime_89 : prime 89.
Proof. apply (prime_trial 11); [lia|vm_compute; reflexivity]. Qed.
Lemma prime_14923 : prime 14923.
Proof. apply (prime_trial 124); [lia|vm_compute; reflexivity]. Qed.
Lemma prime_59 : prime 59.
Proof. apply (prime_trial 9); [lia|vm_compute; reflexivity]. Qed.
Lemma prime_1973 : prime 1973.
Proof. apply (prime_trial 46); [lia|vm_compute; reflexivity]. Qed.
Lemma prime_24917 : prime 24917.
Proof. apply (prime_trial 159); [lia|vm_compute; reflexivity]. Qed.
Lemma prime_149503 : prime 149503.
Proof.
  apply (lucas 149503 24 3 (Node (Node (Leaf 2 1) (Leaf 3 1)) (Leaf 24917 1))).
  - exact (Forall_cons _ prime_2 (Forall_cons _ prime_3 (Forall_cons _ prime_24917 (Forall_nil _)))).
  - vm_compute. reflexivity.
Qed.
Lemma prime_897019 : prime 897019.
Proof.
  apply (lucas 897019 26 2 (Node (Node (Leaf 2 1) (Leaf 3 1)) (Leaf 149503 1))).
  - exact (Forall_cons _ prime_2 (Forall_cons _ prime_3 (Forall_cons _ prime_149503 (Forall_nil _)))).
  - vm_compute. reflexivity.
Qed.
Lemma prime_417677162933 : prime 417677162933.
Proof.
  apply (lucas 417677162933 45 2 (Node (Node (Node (Leaf 2 2) (Leaf 59 1)) (Leaf 1973 1)) (Leaf 897019 1))).
  - exact (Forall_cons _ prime_2 (Forall_cons _ prime_59 (Forall_cons _ prime_1973 (Forall_cons _ prime_897019 (Forall_nil _))))).
  - vm_compute. reflexivity.
Qed.
Lemma prime_539204044132271846773 : prime 539204044132271846773.
Proof.
  apply (lucas 539204044132271846773 75 5 (Node (Node (Leaf 14923 1) (Node (Leaf 3 5) (Node (Leaf 2 2) (Leaf 89 1)))) (Leaf 417677162933 1))).
  - exact (Forall_cons _ prime_14923 (Forall_cons _ prime_3 (Forall_cons _ prime_2 (Forall_cons _ prime_89 (Forall_cons _ prime_417677162933 (Forall_nil _)))))).
  - vm_compute. reflexivity.
Qed.
Lemma prime_2531 : prime 2531.
Proof. apply (prime_trial 52); [lia|vm_compute; reflexivity]. Qed.
Lemma prime_19267 : prime 19267.
Proof. apply (prime_trial 140); [lia|vm_compute; reflexivity]. Qed.
Lemma prime_115603 : prime 115603.
Proof.
  apply (lucas 115603 23 2 (Node (Node (Leaf 2 1) (Leaf 3 1)) (Leaf 19267 1))).
  - exact (Forall_cons _ prime_2 (Forall_cons _ prime_3 (Forall_cons _ prime_19267 (Forall_nil _)))).
  - vm_compute. reflexivity.
Qed.
Lemma prime_53 : prime 53.
Proof. apply (prime_trial 9); [lia|vm_compute; reflexivity]. Qed.
Lemma prime_3767 : prime 3767.
Proof. apply (prime_trial 63); [lia|vm_compute; reflexivity]. Qed.
Lemma prime_1197907 : prime 1197907.
Proof.
  apply (lucas 1197907 27 3 (Node (Node (Node (Leaf 2 1) (Leaf 3 1)) (Leaf 53 1)) (Leaf 3767 1))).
  - exact (Forall_cons _ prime_2 (Forall_cons _ prime_3 (Forall_cons _ prime_53 (Forall_cons _ prime_3767 (Forall_nil _))))).
  - vm_compute. reflexivity.
Qed.
Lemma prime_977 : prime 977.
Proof. apply (prime_trial 33); [lia|vm_compute; reflexivity]. Qed.
Lemma prime_6942563 : prime 6942563.
Proof.
  apply (lucas 6942563 29 2 (Node (Leaf 977 1) (Node (Node (Leaf 2 1) (Leaf 11 1)) (Node (Leaf 17 1) (Leaf 19 1))))).
  - exact (Forall_cons _ prime_977 (Forall_cons _ prime_2 (Forall_cons _ prime_11 (Forall_cons _ prime_17 (Forall_cons _ prime_19 (Forall_nil _)))))).
  - vm_compute. reflexivity.
Qed.
Lemma prime_41655379 : prime 41655379.
Proof.
  apply (lucas 41655379 32 2 (Node (Node (Leaf 2 1) (Leaf 3 1)) (Leaf 6942563 1))).
  - exact (Forall_cons _ prime_2 (Forall_cons _ prime_3 (Forall_cons _ prime_6942563 (Forall_nil _)))).
  - vm_compute. reflexivity.
Qed.
Lemma prime_22160661629 : prime 22160661629.
Proof.
  apply (lucas 22160661629 41 3 (Node (Node (Leaf 19 1) (Node (Leaf 2 2) (Leaf 7 1))) (Leaf 41655379 1))).
  - exact (Forall_cons _ prime_19 (Forall_cons _ prime_2 (Forall_cons _ prime_7 (Forall_cons _ prime_41655379 (Forall_nil _))))).
  - vm_compute. reflexivity.
Qed.
Lemma prime_509 : prime 509.
Proof. apply (prime_trial 24); [lia|vm_compute; reflexivity]. Qed.
Lemma prime_41 : prime 41.
Proof. apply (prime_trial 8); [lia|vm_compute; reflexivity]. Qed.
Lemma prime_413527 : prime 413527.
Proof.
  apply (lucas 413527 25 3 (Node (Node (Leaf 2 1) (Leaf 3 1)) (Leaf 41 3))).
  - exact (Forall_cons _ prime_2 (Forall_cons _ prime_3 (Forall_cons _ prime_41 (Forall_nil _)))).
  - vm_compute. reflexivity.
Qed.
Lemma prime_25741 : prime 25741.
Proof. apply (prime_trial 162); [lia|vm_compute; reflexivity]. Qed.
Lemma prime_772231 : prime 772231.
Proof.
  apply (lucas 772231 26 6 (Node (Node (Leaf 5 1) (Node (Leaf 2 1) (Leaf 3 1))) (Leaf 25741 1))).
  - exact (Forall_cons _ prime_5 (Forall_cons _ prime_2 (Forall_cons _ prime_3 (Forall_cons _ prime_25741 (Forall_nil _))))).
  - vm_compute. reflexivity.
Qed.
Lemma prime_325086459374267 : prime 325086459374267.
Proof.
  apply (lucas 325086459374267 55 2 (Node (Leaf 772231 1) (Node (Node (Leaf 2 1) (Leaf 509 1)) (Leaf 413527 1)))).
  - exact (Forall_cons _ prime_772231 (Forall_cons _ prime_2 (Forall_cons _ prime_509 (Forall_cons _ prime_413527 (Forall_nil _))))).
  - vm_compute. reflexivity.
Qed.
Lemma prime_8999194758858563409123804352480028797519453 : prime 8999194758858563409123804352480028797519453.
Proof.
  apply (lucas 8999194758858563409123804352480028797519453 149 2 (Node (Node (Node (Leaf 2531 1) (Node (Node (Leaf 2 2) (Leaf 11 1)) (Leaf 3 4))) (Leaf 22160661629 1)) (Node (Node (Leaf 115603 1) (Leaf 1197907 1)) (Leaf 325086459374267 1)))).
  - exact (Forall_cons _ prime_2531 (Forall_cons _ prime_2 (Forall_cons _ prime_11 (Forall_cons _ prime_3 (Forall_cons _ prime_22160661629 (Forall_cons _ prime_115603 (Forall_cons _ prime_1197907 (Forall_cons _ prime_325086459374267 (Forall_nil _))))))))).
  - vm_compute. reflexivity.
Qed.
