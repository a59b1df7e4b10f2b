(* Model of the code for the publics computed from expressions (starky/src/starkinfo.rs:274-322 and
   starkinfo_map.rs:244-246). The expressions are the table [tbl]; log lines are left out, and so is
   set_code_dimensions, which only fills in dim fields of temporaries. *)
From Verif Require Import Base F3gModel CodegenModel InterpModel VerifierModel ParModel StarkModel StageModel.
Open Scope nat_scope.
Open Scope res_scope.

(* starkinfo.rs:298-312 fix_ref: only expressions are changed, and the prime is cleared *)
Definition pub_ref (f : fstate) (r : node) : res (node * fstate) :=
  match n_ty r with
  | Nexp => let '(t, f') := exp_tmp f (n_prime r, n_id r) in Ok (mkN Ntmp t (n_value r) (n_dim r) false (n_pos r), f')
  | _ => Ok (r, f)
  end.
(* starkinfo.rs:284-316: one public of type imP *)
Definition public_code (fuel : nat) (tbl : list expr) (pol : nat) : res segment :=
  do c <- pil_code_gen fuel tbl None false (mkCtx 0 [] []) pol false;
  let '(code, tmp, _) := build_code tbl c in
  do r <- iter_code pub_ref (mkF [] tmp (mkEV [] [])) code;
  Ok (mkSeg (fst r) (f_tmp (snd r))).
(* starkinfo.rs:279-321: publics_code gets one segment for each public of type imP *)
Definition is_imP (p : public) : bool := match pb_kind p with PimP => true | _ => false end.
Definition public_codes (fuel : nat) (tbl : list expr) (ps : list public) : res (list segment) :=
  mapM (fun p => public_code fuel tbl (pb_pol p)) (filter is_imP ps).
(* starkinfo_map.rs:244-246 *)
Definition map_publics (si : sinfo) (im texp : list (nat * nat)) (segs : list segment) : res (list segment) :=
  mapM (fun s => fix_prover_code si im texp true (sg_first s) (sg_tmp s)) segs.
