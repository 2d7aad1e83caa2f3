(** * What the dichotomic search should do *)

From Coq Require Import List ZArith QArith Bool.
From Verif Require Import Util Common_Model OneDim_Model ColGen_Model ColGen_Spec Svc_Model Svc_Spec Dicho_Model.
Import ListNotations.
Open Scope Z_scope.

(** Numbers of copies as the builders leave them. *)
Definition dinst_ok (i : DInst) : Prop :=
  forall t, (t < cnb (dbase i))%nat -> 0 <= cb_copies_min (cbin (dbase i) t) <= cb_copies (cbin (dbase i) t).

(** A solver that respects the sub-problems: bins of its types, in at least one
    copy and at most as many as there are, items of the instance, no more copies
    than there are. *)
Record dhonest (i : DInst) (o : DOracle) : Prop := {
  dh_bins : forall c bins b, In b (do_solve o c bins) ->
    (b_type b < length bins)%nat /\ 1 <= b_copies b /\ forall x, In x (b_items b) -> (x < cni (dbase i))%nat;
  dh_types : forall c bins p, (p < length bins)%nat -> 0 <= snd (nth p bins (O, 0)) -> used_bins (do_solve o c bins) p <= snd (nth p bins (O, 0));
  dh_items : forall c bins x, (x < cni (dbase i))%nat -> used_items (do_solve o c bins) x <= ci_copies (citem (dbase i) x)
}.

(** A set of bins between the mandatory ones and all of them. *)
Definition selects (i : DInst) (sel : list Z) : Prop :=
  length sel = cnb (dbase i)
  /\ forall t, (t < cnb (dbase i))%nat -> cb_copies_min (cbin (dbase i) t) <= nth t sel 0 <= cb_copies (cbin (dbase i) t).

Definition ext_le (a b : Ext) : Prop :=
  match a, b with Fin p, Fin q => (p <= q)%Q | _, Inf => True | Inf, Fin _ => False end.

Definition final (r : DRes) : DState := match r with DEnd s => s | DThrow s => s end.
