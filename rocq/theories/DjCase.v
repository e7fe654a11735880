(** C158-C160: concrete cases. *)
From Coq Require Import String List ZArith Reals Bool Lia Lra.
From Verif Require Import Base BaseLemmas RMat OscModel BlockModel JpvSpec TrfModel TrfSpec TrfCase RmeModel RmeSpec RgModel HmCase MosModel MosSpec RgnModel RgnSpec RgnInput RgnCase DjData DjModel DjSpec DjProof DjFinal.
Import ListNotations.
Open Scope Z_scope.

(** 1s0: -11.67044 and -6.644545 MeV; between 3s1 and 3d1, on both sides; outside the tables *)
Lemma table_case : tabulated 0 0 0 0 0 0 = -11670440000000000 /\ tabulated 0 0 0 0 0 1 = -6644545000000000 /\ tabulated 1 1 0 0 2 0 = tabulated 1 1 2 0 0 0 /\ tabulated 1 1 0 0 2 0 <> 0
  /\ tabulated 0 0 0 30 0 30 <> 0 /\ tabulated 0 0 0 0 0 31 = 0 /\ tabulated 1 1 0 0 1 0 = 0 /\ tabulated 7 0 7 0 7 0 = 0.
Proof. vm_compute. repeat split; discriminate. Qed.
Lemma v_case : forall single, single 0%R = 0%R -> v_daejeon16 single 0 1 0 0 0 0 1 0 = Ok (single (IZR (-6644545000000000) / IZR (10 ^ 15)))%R
  /\ v_daejeon16 single 0 31 0 0 0 0 1 0 = Ok 0%R /\ v_daejeon16 single 0 (-1) 0 0 0 0 1 0 = UB.
Proof.
  intros single H0. split; [|split]; [| |reflexivity].
  - change (v_daejeon16 single (Z.of_nat 0) (Z.of_nat 1) 0 0 0 0 1 0 = Ok (single (IZR (-6644545000000000) / IZR (10 ^ 15)))%R). rewrite (v_table single H0 0 0 0 0 0 1). reflexivity.
  - change (v_daejeon16 single (Z.of_nat 0) (Z.of_nat 31) 0 0 0 0 1 0 = Ok 0%R). rewrite (v_table single H0 0 0 0 0 0 31). f_equal. unfold daejeon.
    replace (tabulated 0 0 0 0 0 31) with 0 by reflexivity. replace (IZR 0 / IZR (10 ^ 15))%R with 0%R; [exact H0|]. unfold Rdiv. ring.
Qed.
Local Open Scope string_scope.
Definition in_d16 : list (list word) := [[iw "0" 0; iw "0" 0; iw "0" 0; iw "0" 0]; [iw "0" 0]; [tx "interaction"; tx "Daejeon16"]; [tx "d16.dat"]].
Lemma d16_case : forall single racah1 racah2 w3j w6j jrme tgamma quad racah12 crme jhalf cj1 cj2 inverse_r, single 0%R = 0%R ->
  exists c, gen_main racah1 racah2 w3j w6j jrme tgamma quad racah12 crme jhalf cj1 cj2 inverse_r (Some (daejeon16 single (fun _ => 0%Z))) lib0 in_d16 = Ok ("d16.dat"%string, RelFile (OpLab 0 0 0 0) 0 1 c)
  /\ stores_num (spaces0 0 1) (OpLab 0 0 0 0) c (isoscalar_rme (daejeon single))
  /\ isoscalar_rme (daejeon single) 0 (0, 0, 0, 1)%Z 0 (0, 0, 0, 1)%Z 0 = single (IZR (-11670440000000000) / IZR (10 ^ 15))%R.
Proof.
  intros single racah1 racah2 w3j w6j jrme tgamma quad racah12 crme jhalf cj1 cj2 inverse_r H0.
  destruct (gen_daejeon single H0 (fun _ => 0%Z) racah1 racah2 w3j w6j jrme tgamma quad racah12 crme jhalf cj1 cj2 inverse_r lib0 in_d16 (GParams (OpLab 0 0 0 0) 0 1 "interaction" (AInteraction "Daejeon16") "d16.dat")) as (_ & c & E & S); try reflexivity.
  - apply gen_read_iff. reflexivity.
  - apply rel_space_01.
  - intros x [<-|[<-|[]]]; cbn; lia.
  - cbn; lia.
  - exists c. split; [exact E|]. split; [exact S|]. unfold isoscalar_rme, same_pair, potential_at. cbn [Z.eqb andb Z.sub Z.opp Z.add]. change (Z.to_nat (0 / 2)) with 0%nat. unfold daejeon. f_equal. f_equal. f_equal. vm_compute. reflexivity.
Qed.
