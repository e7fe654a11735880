(** C73, C74, C75: relative interaction files in the format of P. Navratil, and pn2rel. *)
From Coq Require Import String List ZArith Reals Bool Lia Lra.
From Verif Require Import Base RMat OscModel BlockModel ObioModel JpvModel JpvSpec IsoModel IsoSpec PnModel PnSpec PnProof PnFinal.
Import ListNotations.
Open Scope Z_scope.
Open Scope list_scope.

(** C73: after a file the components branch to the matrix elements of the file: between T=1 states to that of pp (Tz=-1 in the
    file), pn (0) and nn (1); the T=0 states take the lines with Tz=0.  Later lines replace earlier ones, either order of bra and
    ket may be given, and elements of which no line speaks are zero. *)
Theorem C73_file : forall sp s0 s1 s2 ps lines c, rspace_ok sp -> PnSpec.antisymmetric sp -> upper s0 -> rsectors_ok sp [s0; s1; s2] ->
  Forall2 (fun p l => line_text p l /\ line_ok sp s0 p) ps lines -> comps_ok sp [s0; s1; s2] c -> zero_comps sp [s0; s1; s2] c ->
  exists c', read_pn_pn sp lines c = Ok c' /\ comps_ok sp [s0; s1; s2] c'
  /\ (forall q0 q1 q2 b k xb xk i j, nth_error s0 q0 = Some (b, k) -> nth_error s1 q1 = Some (b, k) -> nth_error s2 q2 = Some (b, k) -> nth_error sp b = Some xb -> nth_error sp k = Some xk ->
       r_T xb = 1 -> r_T xk = 1 -> (i < rdim sp b)%nat -> (j < rdim sp k)%nat -> forall Tz, -1 <= Tz <= 1 ->
       branched (- Tz) (cent c' 0 q0 i j) (cent c' 1 q1 i j) (cent c' 2 q2 i j) = told ps Tz xb i xk j 0%R)
  /\ (forall q0 b k xb xk i j, nth_error s0 q0 = Some (b, k) -> nth_error sp b = Some xb -> nth_error sp k = Some xk ->
       r_T xb = 0 -> r_T xk = 0 -> (i < rdim sp b)%nat -> (j < rdim sp k)%nat -> cent c' 0 q0 i j = told ps 0 xb i xk j 0%R).
Proof. exact pn_file. Qed.
Print Assumptions C73_file.
(** the element told by the lines of a Hermitian interaction is that of the interaction, if some line gives it *)
Theorem C73_interaction : forall V Tz x i y j ps v, PnFinal.hermitian V -> Forall (truthful V) ps ->
  (exists p, In p ps /\ pl_Tz p = Tz /\ about p x i y j || about p y j x i = true) \/ v = V Tz (r_J x) (r_S x) (r_L x) i (r_L y) j ->
  told ps Tz x i y j v = V Tz (r_J x) (r_S x) (r_L x) i (r_L y) j.
Proof. exact told_from. Qed.
Print Assumptions C73_interaction.
Theorem C73_untold : forall Tz x i y j ps v, (forall p, In p ps -> pl_Tz p = Tz -> about p x i y j || about p y j x i = false) -> told ps Tz x i y j v = v.
Proof. exact told_untold. Qed.
Print Assumptions C73_untold.

(** 1S0 (T=1) with two radial states, 3S1 and 3D1 (T=0) with one *)
Definition pn_space : rspace := [RSub 0 0 0 1 0 2; RSub 0 1 1 0 0 1; RSub 2 1 1 0 0 1].
Definition pn_s0 : lsectors := [(0, 0); (1, 1); (1, 2); (2, 2)]%nat.
Definition pn_s1 : lsectors := [(0, 0)]%nat.
Definition pn_zero (n m : nat) : mat R := mzero 0%R n m.
Definition pn_comps : components := [(pn_s0, [pn_zero 2 2; pn_zero 1 1; pn_zero 1 1; pn_zero 1 1]); (pn_s1, [pn_zero 2 2]); (pn_s1, [pn_zero 2 2])].
(** the pp, pn and nn elements (0,1) of 1S0, the second as (1,0), and 3D1-3S1 *)
Definition pn_lines : list pline := [PL 0 0 1 0 0 0 (-1) 5%R; PL 1 0 0 0 0 0 0 6%R; PL 0 0 1 0 0 0 1 7%R; PL 0 2 0 0 1 1 0 8%R].
Example C73_ex : rspace_ok pn_space /\ PnSpec.antisymmetric pn_space /\ upper pn_s0 /\ rsectors_ok pn_space [pn_s0; pn_s1; pn_s1]
  /\ Forall2 (fun p l => line_text p l /\ line_ok pn_space pn_s0 p) pn_lines (map text_of_line pn_lines) /\ comps_ok pn_space [pn_s0; pn_s1; pn_s1] pn_comps
  /\ zero_comps pn_space [pn_s0; pn_s1; pn_s1] pn_comps.
Proof.
  split. { unfold rspace_ok. cbn. repeat (constructor; [cbn; intuition discriminate|]). constructor. }
  split. { intros x [<- | [<- | [<- | []]]]; repeat split. }
  split. { intros b k [E | [E | [E | [E | []]]]]; injection E as <- <-; lia. }
  split.
  { split; [reflexivity|]. split; [repeat constructor; cbn; intuition discriminate|]. split.
    - intros s0 b k xb xk s E Hin Hb Hk Tb Tk Hs. injection E as <-. destruct Hin as [E|[E|[E|[E|[]]]]]; injection E as <- <-;
        [destruct Hs as [<-|[<-|[<-|[]]]]; left; reflexivity | | | ]; injection Hb as <-; discriminate.
    - intros s b k [<-|[<-|[<-|[]]]] Hin; cbn in Hin; repeat (destruct Hin as [E|Hin]; [injection E as <- <-; cbn; lia|]); destruct Hin. }
  split.
  { repeat constructor; try (exists (TNum 5%R), []; repeat split; fail); try (exists (TNum 6%R), []; repeat split; fail); try (exists (TNum 7%R), []; repeat split; fail);
      try (exists (TNum 8%R), []; repeat split; fail); cbn [pl_np pl_Lp pl_n pl_L pl_S pl_J pl_Tz pl_me]; try lia.
    - exists 0%nat, 0%nat. do 2 eexists. split; [reflexivity|]. split; [reflexivity|]. split; [repeat split|]. split; [repeat split|]. left. left. reflexivity.
    - exists 0%nat, 0%nat. do 2 eexists. split; [reflexivity|]. split; [reflexivity|]. split; [repeat split|]. split; [repeat split|]. left. left. reflexivity.
    - exists 0%nat, 0%nat. do 2 eexists. split; [reflexivity|]. split; [reflexivity|]. split; [repeat split|]. split; [repeat split|]. left. left. reflexivity.
    - exists 2%nat, 1%nat. do 2 eexists. split; [reflexivity|]. split; [reflexivity|]. split; [repeat split|]. split; [repeat split|]. right. right. right. left. reflexivity. }
  split. { repeat constructor. }
  intros [|[|[|T0]]] s q x y Hs (b & k & Hq & _); cbn in Hs; try (destruct T0; discriminate); injection Hs as <-; unfold cent, entry_of; cbn.
  - destruct q as [|[|[|[|q]]]]; cbn; try reflexivity. destruct q; reflexivity.
  - destruct q as [|q]; cbn; try reflexivity. destruct q; reflexivity.
  - destruct q as [|q]; cbn; try reflexivity. destruct q; reflexivity.
Qed.
Example C73_ex2 : let x := RSub 0 0 0 1 0 2 in let s := RSub 0 1 1 0 0 1 in let d := RSub 2 1 1 0 0 1 in
  told pn_lines (-1) x 0 x 1 0 = 5%R /\ told pn_lines 0 x 0 x 1 0 = 6%R /\ told pn_lines 1 x 0 x 1 0 = 7%R /\ told pn_lines 1 x 1 x 0 0 = 7%R
  /\ told pn_lines 0 s 0 d 0 0 = 8%R /\ told pn_lines 1 x 0 x 0 0 = 0%R.
Proof. repeat split. Qed.

(** C74: a line that is not seven int and a number, or whose labels are not in the space, ends the program. *)
Theorem C74_unreadable : forall sp sectors ps lines l rest ms, rspace_ok sp -> PnSpec.antisymmetric sp -> NoDup sectors -> upper sectors -> triple_ok sp sectors ms ->
  Forall2 (fun p l => line_text p l /\ line_ok sp sectors p) ps lines ->
  (forall p, ~ line_text p l) -> read_pn sp sectors (lines ++ l :: rest) ms = Exit.
Proof. exact unreadable. Qed.
Print Assumptions C74_unreadable.
Theorem C74_absent : forall sp sectors ps lines p l rest ms, rspace_ok sp -> PnSpec.antisymmetric sp -> NoDup sectors -> upper sectors -> triple_ok sp sectors ms ->
  Forall2 (fun p l => line_text p l /\ line_ok sp sectors p) ps lines -> line_text p l ->
  (forall x, In x sp -> (r_L x, r_S x, r_J x) <> (pl_L p, pl_S p, pl_J p)) \/ (forall x, In x sp -> (r_L x, r_S x, r_J x) <> (pl_Lp p, pl_S p, pl_J p)) ->
  read_pn sp sectors (lines ++ l :: rest) ms = Exit.
Proof. exact absent. Qed.
Print Assumptions C74_absent.
Example C74_ex : read_pn odd_space odd_sectors [[TInt 0; TInt 4]] [odd_zero; odd_zero; odd_zero] = Exit
  /\ read_pn odd_space odd_sectors [text_of_line (PL 0 4 0 4 1 1 0 5%R)] [odd_zero; odd_zero; odd_zero] = Exit
  /\ (forall p, ~ line_text p [TInt 0; TInt 4]).
Proof. split; [reflexivity|]. split; [reflexivity|]. intros p (w & more & E & _). discriminate. Qed.
(** It is false of lines whose Tz is not -1, 0 or 1, which index behind an array, and of lines between states of different
    parity, whose sector does not exist. *)
Theorem C74_charge_refuted : exists sp sectors p l ms, rspace_ok sp /\ PnSpec.antisymmetric sp /\ NoDup sectors /\ upper sectors /\ triple_ok sp sectors ms
  /\ line_text p l /\ ~ (-1 <= pl_Tz p <= 1) /\ read_pn sp sectors [l] ms = UB.
Proof. exact tz_undefined. Qed.
Print Assumptions C74_charge_refuted.
Theorem C74_parity_refuted : exists sp sectors p l ms, rspace_ok sp /\ PnSpec.antisymmetric sp /\ NoDup sectors /\ upper sectors /\ triple_ok sp sectors ms
  /\ line_text p l /\ (pl_L p + pl_Lp p) mod 2 = 1 /\ read_pn sp sectors [l] ms = UB.
Proof. exact parity_undefined. Qed.
Print Assumptions C74_parity_refuted.

(** C75: pn2rel takes four arguments, and stops with fewer than two; with two or three it makes strings of what lies behind
    its arguments. *)
Theorem C75_arguments : forall to_int name a b src tgt more Nmax Jmax, to_int a = Some Nmax -> to_int b = Some Jmax ->
  pn2rel_arguments to_int (name :: a :: b :: src :: tgt :: more) = Ok (Nmax, Jmax, src, tgt).
Proof. exact arguments_ok. Qed.
Print Assumptions C75_arguments.
Theorem C75_few : forall to_int args, (List.length args < 3)%nat -> pn2rel_arguments to_int args = Exit.
Proof. exact arguments_few. Qed.
Print Assumptions C75_few.
Theorem C75_undefined : forall to_int args a b, List.length args = 3%nat \/ List.length args = 4%nat -> nth_error args 1 = Some a -> nth_error args 2 = Some b ->
  to_int a <> None -> to_int b <> None -> pn2rel_arguments to_int args = UB.
Proof. exact arguments_undefined. Qed.
Print Assumptions C75_undefined.
Theorem C75_missing_refuted : exists to_int args, List.length args = 4%nat /\ pn2rel_arguments to_int args = UB.
Proof. exact arguments_example. Qed.
Print Assumptions C75_missing_refuted.
Example C75_ex : pn2rel_arguments (fun s => if String.eqb s "20" then Some 20 else if String.eqb s "4" then Some 4 else None) ["pn2rel"; "20"; "4"; "in.dat"; "out.dat"]%string
  = Ok (20, 4, "in.dat", "out.dat")%string.
Proof. reflexivity. Qed.
