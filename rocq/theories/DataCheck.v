(** * Shipped skills against the data tables (C69), as computations *)

From Coq Require Import ZArith QArith List String Bool Lia.
From Verif Require Import Base BaseFacts Strings Float Types Lookup SpecGame Py PyFacts GameLib GameFacts GameCheck SpecData.
Import ListNotations.
Open Scope string_scope.
Open Scope Z_scope.

(** What a table says at one version and level. *)
Definition newest (r : Z) (patches : list (vlit * expr)) : list expr :=
  flat_map (fun ke => if (vlit_pos (fst ke) <=? r)
                         && forallb (fun ke' => negb (vlit_pos (fst ke') <=? r) || (vlit_pos (fst ke') <=? vlit_pos (fst ke)))
                              patches
                      then [snd ke] else []) patches.
Definition active (r lv : Z) (t : data_table) : list (string * (string * expr)) :=
  flat_map (fun row => flat_map (fun lp => if fst lp =? lv
      then flat_map (fun pp => map (fun e => (fst row, (fst pp, e))) (newest r (snd pp))) (snd lp) else [])
    (snd row)) t.
Fixpoint literal (e : expr) : option Q :=
  match e with
  | EInt z => Some (inject_Z z)
  | EFlt n d => Some (n # d)
  | EBin BMul a b => match literal a, literal b with Some x, Some y => Some (Qred (x * y)) | _, _ => None end
  | ECall f [a] [] => if String.eqb f "int" then
                        match literal a with Some x => if Qeq_bool x (inject_Z (Qnum x)) then Some x else None | None => None end
                      else None
  | _ => None
  end.
Definition named_rows (rows : list (string * (string * expr))) (n : string) : list (string * expr) :=
  flat_map (fun x => if String.eqb (fst x) n then [snd x] else []) rows.

(** The hits of a press. *)
Definition damage_at (s : skill) (m : modifier) : list Q :=
  match get_damage_spec s m with Ok (Some d) => [potency d] | _ => [] end.
Definition press_hits (s : skill) (m : modifier) : list Q :=
  (damage_at s m ++ match get_follow_up_skills s m with
                    | Ok fs => flat_map (fun fu => match fu_dot fu with None => damage_at (fu_skill fu) m | Some _ => [] end) fs
                    | Err _ => []
                    end)%list.
Definition all_equal (z : Q) (l : list Q) : bool :=
  match l with [] => false | _ => forallb (fun q => Qeq_bool q z) l end.
Definition off_tableb (j n : string) : bool :=
  (String.eqb j "DRG" && smem n ["Spiral Blow"; "Starcross"]) || (String.eqb j "WAR" && smem n ["Vengeance"; "Damnation"])
  || (String.eqb j "BRD" && smem n ["Army's Paeon"; "Mage's Ballad"; "The Wanderer's Minuet"]).
Definition potency_row_ok (s : skill) (pe : string * expr) : bool :=
  match snd pe with
  | EInt z => match dget (fst pe) potency_of with
              | Some c => all_equal (inject_Z z) (press_hits s (cond_modifier c))
              | None => true
              end
  | _ => true
  end.
Definition own_ok (j : string) (rows : list (string * (string * expr))) (s : skill) : bool :=
  if off_tableb j (sk_name s) then true else forallb (potency_row_ok s) (named_rows rows (sk_name s)).

(** Effects and DoTs. *)
Definition is_fin (e : ext) (q : Q) : bool := match e with Fin z => Qeq_bool (inject_Z z) q | Inf => false end.
Definition effect_row_ok (effects : list status_spec) (pe : string * expr) : bool :=
  if String.eqb (fst pe) "duration"
  then match effects, literal (snd pe) with
       | [], _ => true
       | _, Some q => forallb (fun e => is_fin (duration e) q) effects
       | _, None => false
       end
  else if String.eqb (fst pe) "damage_mult"
  then match snd pe with EFlt n d => forallb (fun e => Qeq_bool (damage_mult e) (dec n d)) effects | _ => false end
  else true.
Definition dot_row_ok (s : skill) (d : Z) (pe : string * expr) : bool :=
  if String.eqb (fst pe) "duration"
  then match literal (snd pe) with Some q => Qeq_bool (inject_Z d) q | None => false end
  else if String.eqb (fst pe) "potency"
  then match snd pe with EInt z => all_equal (inject_Z z) (damage_at s (cond_modifier [])) | _ => true end
  else true.
Definition fu_ok (rows : list (string * (string * expr))) (fu : follow_up) : bool :=
  match fu_dot fu with
  | None => true
  | Some d => forallb (dot_row_ok (fu_skill fu) d) (named_rows rows (sk_name (fu_skill fu)))
  end.
Definition part_tabled (rows : list (string * (string * expr))) (dots : bool) (p : skill) : bool :=
  match effects_of p with [] => true | es => forallb (effect_row_ok es) (named_rows rows (sk_name p)) end
  && (if dots then forallb (fu_ok rows) (follow_ups_of p) else true).

Definition class_tabled (r lv : Z) (c : pclass) (x : loaded_job) : bool :=
  let rows := active r lv (c_data c) in
  forallb (fun s => own_ok (lj_job x) rows s
                    && all_parts 6 (part_tabled rows (negb (String.eqb (sk_name s) "Eukrasian Dyskrasia"))) s) (snd x).
(** The skills that ignore their table, and how Technical Finish differs. *)
Definition hits_at (js : list loaded_job) (j n : string) (q : Q) : bool :=
  existsb (fun x => String.eqb (lj_job x) j
                    && existsb (fun s => String.eqb (sk_name s) n && all_equal q (press_hits s (cond_modifier []))) (snd x)) js.
Definition off_at (r lv : Z) (js : list loaded_job) : bool :=
  if lv =? 100 then hits_at js "DRG" "Spiral Blow" 300 && hits_at js "DRG" "Starcross" 700
                    && hits_at js "DNC" "Technical Finish" 1200 && hits_at js "DNC" "Quadruple Technical Finish" 1300
  else true.
Definition tables_at (r : Z) (l : lrank) (cs : list pclass) (js : list loaded_job) : bool :=
  match lev_key l with
  | None => false
  | Some lv => Nat.eqb (List.length cs) (List.length js) && forallb (fun cx => class_tabled r lv (fst cx) (snd cx)) (combine cs js) && off_at r lv js
  end.
