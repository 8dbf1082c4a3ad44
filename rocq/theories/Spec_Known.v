(** Specifications for C74: corrections of known problems. *)
From Coq Require Import Ascii.
From Verif Require Import Base Types Uncertainty Utils Strings Recalculation Formulas Spec_Parameters.

(** [s'] is [s] with every occurrence of [bad], from left to right, replaced by [good]. *)
Definition occurs_in (bad s : text) : Prop := exists pre post, s = pre ++ bad ++ post.
Inductive replaced (bad good : text) : text -> text -> Prop :=
| replaced_none s : ~ occurs_in bad s -> replaced bad good s s
| replaced_first pre post post' : ~ occurs_in bad (pre ++ removelast bad) -> replaced bad good post post' ->
    replaced bad good (pre ++ bad ++ post) (pre ++ good ++ post').

(** The corrections: activity, wrong text, right text. *)
Inductive correction : string -> string -> string -> Prop :=
| correct_thermoforming : correction "thermoforming of plastic sheets" "1/014000000/50*0.946" "1.3514285714285711e-09"
| correct_benzene : correction "benzene chlorination" "UnitConversion(152000000, 'pound avoirdupois', 'kg')" "68949040.24"
| correct_timber : correction "glued laminated timber production, for indoor use"
    "AVERAGE(3.08E04;4.00E04;3.39E04)*(AVERAGE(367561;433458;449963)/AVERAGE(1408383;1631979;1717500))" "9176.23"
| correct_cement : correction "cement production, alternative constituents 6-20%"
    "ABS(blast_furnace_slag/ cement* APV_cement)" "(abs(blast_furnace_slag / cement * apv_cement) if cement else 0)".

Definition corrected (ds ds' : dataset) : Prop :=
  (ds' = ds /\ forall bad good, ~ correction (d_name ds) bad good) \/
  exists bad good, correction (d_name ds) bad good /\
    renamed (fun o o' => o_variable o' = o_variable o /\
      match o_formula o with
      | None => o_formula o' = None
      | Some f => exists f', o_formula o' = Some f' /\ replaced (chars bad) (chars good) (chars f) (chars f')
      end) ds ds'.

(** Refinery gas that does not flow. *)
Definition idle_gas (e : exchange) : Prop := e_name e = "refinery gas"%string /\ e_amount e = 0%Qc.
Global Instance idle_gas_dec e : Decision (idle_gas e).
Proof. unfold idle_gas. apply _. Defined.

(** ** Numerals: digits, with a point, with an exponent of ten *)
Definition digit_value (c : ascii) : option Z :=
  let n := nat_of_ascii c in
  if (Nat.leb 48 n && Nat.leb n 57)%bool then Some (Z.of_nat (n - 48)) else None.
Fixpoint digits_value (acc : Z) (s : text) : option Z :=
  match s with
  | [] => Some acc
  | c :: s => match digit_value c with Some d => digits_value (10 * acc + d)%Z s | None => None end
  end.
Definition split_on (c : ascii) (s : text) : option (text * text) :=
  match list_find (fun d => d = c) s with Some (i, _) => Some (take i s, drop (S i) s) | None => None end.
Definition power_of_ten (z : Z) : Qc :=
  match z with
  | Z0 => 1%Qc
  | Zpos p => Q2Qc (inject_Z (10 ^ Zpos p))
  | Zneg p => (/ Q2Qc (inject_Z (10 ^ Zpos p)))%Qc
  end.
Definition integer_value (s : text) : option Z :=
  match s with
  | "-"%char :: s => match digits_value 0 s with Some z => Some (- z)%Z | None => None end
  | _ => digits_value 0 s
  end.
Definition plain_value (s : text) : option Qc :=
  match split_on "."%char s with
  | Some (a, b) => match digits_value 0 (a ++ b) with
                   | Some z => Some (Q2Qc (inject_Z z) * power_of_ten (- Z.of_nat (length b)))%Qc
                   | None => None
                   end
  | None => match digits_value 0 s with Some z => Some (Q2Qc (inject_Z z)) | None => None end
  end.
Definition decimal (s : string) : option Qc :=
  match split_on "e"%char (chars s) with
  | Some (a, b) => match plain_value a, integer_value b with
                   | Some q, Some z => Some (q * power_of_ten z)%Qc
                   | _, _ => None
                   end
  | None => plain_value (chars s)
  end.
