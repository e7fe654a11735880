(** Vocabulary for C142-C145: input and output of moshinsky, independently of how they are computed. *)
From Coq Require Import String List ZArith Reals Bool.
From Verif Require Import Base RMat OscModel BlockModel MixSpec JpvModel IsoModel IsoSpec TrfModel TrfSpec RgModel MosModel.
Import ListNotations.
Open Scope Z_scope.

(** * Input *)
Definition text_at (ls : list (list word)) (line place : nat) (s : string) : Prop :=
  exists l w, nth_error ls line = Some l /\ nth_error l place = Some w /\ w_text w = s.
Definition number_at (ls : list (list word)) (line place : nat) (z : Z) : Prop :=
  exists l w, nth_error ls line = Some l /\ nth_error l place = Some w /\ w_int w = Some z.
Definition rank_name (r : rank) : string := match r with OneBody => "ob" | TwoBody => "tb" end.
Definition coupling_name (c : coupling) : string :=
  match c with KRel => "rel" | KRelcm => "relcm" | KLsjt => "lsjt" | KJjjt => "jjjt" | KJjjpn => "jjjpn" end.
(** three lines: rank and cutoff; source and its coupling; target and its coupling, with format and Tz0 for jjjpn *)
Definition input_means (none : Z) (ls : list (list word)) (p : mparams) : Prop :=
  text_at ls 0 0 (rank_name (m_rank p)) /\ number_at ls 0 1 (m_cutoff p) /\
  text_at ls 1 0 (m_source p) /\ text_at ls 1 1 (coupling_name (m_from p)) /\
  text_at ls 2 0 (m_target p) /\ text_at ls 2 1 (coupling_name (m_to p)) /\
  (m_to p = KJjjpn -> number_at ls 2 2 (m_format p) /\ number_at ls 2 3 (m_Tz0 p)) /\
  (m_to p <> KJjjpn -> m_format p = none /\ m_Tz0 p = 0).

(** * Which transformations there are *)
Definition possible : list (coupling * coupling) :=
  [(KRel, KRelcm); (KRel, KLsjt); (KRel, KJjjt); (KRel, KJjjpn); (KRelcm, KLsjt); (KRelcm, KJjjt); (KRelcm, KJjjpn)].
(** the contents of a file are in the coupling *)
Definition in_coupling (to : coupling) (format : Z) (f : mfile) : Prop :=
  match f with
  | FRelcm _ _ => to = KRelcm | FLsjt _ _ => to = KLsjt | FJjjt _ _ => to = KJjjt
  | FH2 n _ => to = KJjjpn /\ n = format /\ In n [0; 15099; 15200]
  end.

(** * Matrix elements *)
(** l of an orbital from N and 2j: that of j = l + 1/2 and j = l - 1/2 which has the parity of N *)
Definition orb_l (a : orb) : Z := let l := (snd a - 1) / 2 in if Z.even (fst a - l) then l else l + 1.
Definition with_l (a : orb) : orb3 := (fst a, orb_l a, snd a).
Definition jlab_of (l : tlabels) (a b : orb) : jlab := let '(J, T, g) := l in JLab J T g (fst a + fst b).
Definition before (a b : orb) : bool := (fst a <? fst b) || (fst a =? fst b) && (snd a <=? snd b).
(** a pair of orbitals in any order: the factor to the ordered pair; equal orbitals in an allowed combination only *)
Definition pair_factor (l : tlabels) (a b : orb) : R :=
  if orb_eqb a b then (if Req_EM_T (exchange l a b) 1 then 1%R else 0%R) else if before a b then 1%R else exchange l a b.
Definition pair_of (a b : orb) : orb3 * orb3 := if before a b then (with_l a, with_l b) else (with_l b, with_l a).
Definition tlabels_dec : forall x y : tlabels, {x = y} + {x <> y}. Proof. repeat decide equality. Defined.
Definition in_labels (sp : tspace) (l : tlabels) : bool := if in_dec tlabels_dec l (map tl sp) then true else false.
(** the antisymmetrized matrix elements [H] of ordered pairs, for pairs in any order *)
Definition jt_rme (sp : tspace) (H : Z -> jlab -> orb3 * orb3 -> jlab -> orb3 * orb3 -> R) : rme := fun T0 l a b l' c d =>
  if in_labels sp l && in_labels sp l'
  then (pair_factor l a b * pair_factor l' c d * H T0 (jlab_of l a b) (pair_of a b) (jlab_of l' c d) (pair_of c d))%R else 0%R.

(** quanta of two nucleons in a space truncated by one-body or by two-body quanta *)
Definition quanta_max (r : rank) (N : Z) : Z := match r with OneBody => N + N | TwoBody => N end.

(** * Module basis *)
(** a jjJT space: pairs of ordered orbitals, equal ones in allowed combinations *)
Definition jt_space (sp : tspace) : Prop :=
  Forall (fun x => 0 <= t_J x /\ 0 <= t_T x <= 1 /\ forall a b, In (a, b) (t_states x) -> before a b = true /\ (a = b -> exchange (tl x) a b = 1%R)) sp.
(** there is a component for every T0 *)
Definition has_components (o : oplab) (c : components) : Prop := forall T0, in_range o T0 -> exists x, nth_error c (Z.to_nat T0) = Some x.
(** the gathered operator has the matrix elements [H] in the upper triangle *)
Definition gathered (o : oplab) (sp : tspace) (c : components) (H : Z -> jlab -> orb3 * orb3 -> jlab -> orb3 * orb3 -> R) : Prop :=
  forall T0 i k x y, in_range o T0 -> (i <= k)%nat -> nth_error sp i = Some x -> nth_error sp k = Some y ->
  jt_rule (o_J0 o) T0 (o_g0 o) (t_J x) (t_T x) (t_g x) (t_J y) (t_T y) (t_g y) ->
  exists sectors ms q m, nth_error c (Z.to_nat T0) = Some (sectors, ms) /\ NoDup sectors /\ nth_error sectors q = Some (i, k) /\ nth_error ms q = Some m
  /\ rows m = length (t_states x) /\ cols m = length (t_states y)
  /\ forall u v a b c d, nth_error (t_states x) u = Some (a, b) -> nth_error (t_states y) v = Some (c, d) -> ((i < k)%nat \/ (u <= v)%nat) ->
     at_ m u v = H T0 (jlab_of (tl x) a b) (with_l a, with_l b) (jlab_of (tl y) c d) (with_l c, with_l d).
Definition gathers flip (gather : oplab -> list jjsub -> components -> tspace -> outcome components) (o : oplab) (jj : list jjsub) (sp : tspace) : Prop :=
  forall c H, stores_jj jj o c H -> TrfSpec.hermitian flip a_J a_T H -> exists c', gather o jj c sp = Ok c' /\ has_components o c' /\ gathered o sp c' H.
(** sectors of the jjJpn space obey the selection rules *)
Definition sectors_ok (o : oplab) (Tz0 : Z) (pn : list psub) (ss : list (nat * nat)) : Prop :=
  forall i k, In (i, k) ss -> exists bra ket, nth_error pn i = Some bra /\ nth_error pn k = Some ket
  /\ couples (q_J bra) (o_J0 o) (q_J ket) /\ Z.even (q_g bra + o_g0 o + q_g ket) = true /\ q_Tz bra - q_Tz ket = Tz0.

(** * The file *)
(** one block for every sector, in their order, with the matrix elements by the Wigner-Eckart theorem in isospin; small ones are dropped *)
Definition h2_blocks (tol : R) (o : oplab) (pn : list psub) (ss : list (nat * nat)) (F : rme) (bs : list (nat * nat * mat R)) : Prop :=
  map fst bs = ss /\
  forall i k m bra ket, In (i, k, m) bs -> nth_error pn i = Some bra -> nth_error pn k = Some ket ->
    rows m = length (q_states bra) /\ cols m = length (q_states ket)
    /\ forall u v b d, nth_error (q_states bra) u = Some b -> nth_error (q_states ket) v = Some d ->
       chopped tol (if Nat.eqb i k && negb (Nat.leb u v) then 0%R else wigner_eckart (o_T0_min o) (o_T0_max o) F bra ket b d) (at_ m u v).
(** the spaces: the relative-cm space has what the two-body space needs, and so on *)
Definition spaces_ok (B : basislib) (cm : list lssub) (r : rank) (N : Z) : Prop :=
  cm_space cm /\ tb_space (tb_of B r N) /\ covers cm (tb_of B r N).
Definition jj_spaces_ok flip (B : basislib) (o : oplab) (r : rank) (N : Z) : Prop :=
  jj_space (jj_of B r N) /\ ls_complete (tb_of B r N) (jj_of B r N) /\ jt_space (jt_of B r N) /\ gathers flip (gather_jj B) o (jj_of B r N) (jt_of B r N).
(** order of the two-body space in a file of the format *)
Definition h2_order (format : Z) (ord : ordering) : Prop := In (format, ord) [(0, ByPN); (15099, ByPN); (15200, ByTz)].
Definition pn_spaces_ok (B : basislib) (o : oplab) (r : rank) (N format Tz0 : Z) (pn : list psub) : Prop :=
  exists ord, h2_order format ord /\ pn = pn_of B r N ord /\ sectors_ok o Tz0 pn (pn_sectors B pn (o_J0 o) (o_g0 o) Tz0) /\ Forall (states_ok (jt_of B r N)) pn.
