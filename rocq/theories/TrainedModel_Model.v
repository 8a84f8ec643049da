(** Model of /repo/mlreflect/models/trained_model.py: persistence of a populated [TrainedModel].
    The keras model ([K]) and the arrays ([V]) are opaque; keras/h5py are trusted to return what was stored.
    keras' [save_model] on an .h5 path replaces the whole file (overwrite is keras' default). *)
From Coq Require Import Reals.
From Verif Require Import Py Str Sample_Model.

(** JSON can represent real numbers and dictionaries of real numbers, but not complex numbers. *)
Definition jval_json (v : jval) : bool :=
  match v with JNum (Flt _) => true | JNum (Cpx _ _ _) => false | JDict _ _ => true end.
Definition pdict_json (d : pdict) : bool :=
  match d with PDPair a b => jval_json a && jval_json b | PDVal v => jval_json v end.
Definition opt_json (d : option pdict) : bool := match d with Some d => pdict_json d | None => true end.
Definition ldict_json (d : ldict) : bool :=
  opt_json (d_thickness d) && opt_json (d_roughness d) && opt_json (d_sld d).
Definition sdict_json (d : sdict) : bool :=
  ldict_json (sd_ambient d) && forallb ldict_json (sd_layers d) && ldict_json (sd_substrate d).

(** [json.dumps]: TypeError for complex numbers.  The text is identified with the dictionary it denotes (tuples come back
    as lists, which the constructors treat alike; Python's float repr is lossless). *)
Definition json_dumps (d : sdict) : res sdict := if sdict_json d then Ok d else Raise TypeError.

Section TM.
  Context {K V : Type}.

  (** trained_model.py 26-48: the container, populated *)
  Record trained_model := mkTM {
    tm_sample : structure; tm_keras : K; tm_q : V; tm_mean : V; tm_std : V }.

  (** One .h5 file: the keras content and the group 'prediction_params' (if it was written). *)
  Record h5file := mkFile { f_keras : K; f_params : option (sdict * V * V * V) }.
  Definition fs := string -> option h5file.
  Definition fs_set (f : fs) (p : string) (c : h5file) : fs := fun q => if String.eqb q p then Some c else f q.

  (** trained_model.py 66-79: [save_model] *)
  Definition save_model (f : fs) (p : string) (t : trained_model) : fs * option exn :=
    let f1 := fs_set f p (mkFile (tm_keras t) None) in
    match to_dict (tm_sample t) with
    | Raise e => (f1, Some e)
    | Ok d =>
        match json_dumps d with
        | Raise e => (f1, Some e)
        | Ok j => (fs_set f1 p (mkFile (tm_keras t) (Some (j, tm_q t, tm_mean t, tm_std t))), None)
        end
    end.

  (** trained_model.py 50-64: [from_file] of a populated container; a missing file raises, a missing group is KeyError *)
  Definition from_file (f : fs) (p : string) : res trained_model :=
    match f p with
    | None => Raise FileNotFoundError
    | Some c =>
        match f_params c with
        | None => Raise KeyError
        | Some (j, q, m, sd) =>
            match from_dict empty_structure j with
            | (s, None) => Ok (mkTM s (f_keras c) q m sd)
            | (_, Some e) => Raise e
            end
        end
    end.
End TM.
Arguments trained_model : clear implicits.
Arguments h5file : clear implicits.
Arguments fs : clear implicits.
