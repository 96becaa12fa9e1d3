(** Single JSON messages in memory: fitting one to the plural categories of a
    language, reading JSON into one, writing one. *)
From Coq Require Import String Ascii List ZArith Bool.
From Verif Require Import Base StrModel PoStrModel CldrModel CldrBuiltin LangModel GettextModel JsonModel JsonHeapModel.
Import ListNotations.

Definition set_map (h : heap) (p : nat) (t : catmap) : heap := Heap (h_msgs h) (update (h_maps h) p (fun _ => t)).

(** catalog/json.go:266-287 (applyCategoriesToJSONMessage) on the memory, after
    the test for nil of catalog/json.go:258-260 *)
Definition h_apply (order cats : list category) (h : heap) (msg : option nat) : res heap :=
  match msg with
  | None => Ok h
  | Some a =>
      match nth_error (h_msgs h) a with
      | None => Panic
      | Some m =>
          match mc_tr m with
          | None => Ok h
          | Some p => Ok (Heap (h_msgs h) (update (h_maps h) p (apply_categories order cats)))
          end
      end
  end.

(** catalog/json.go:308-348 (JSONMessage.UnmarshalJSON) on a message that may
    already have contents; false if an error is returned, which happens after
    missing translations were made.  [perm] as in JsonModel.  null is the empty
    string for the first json.Unmarshal. *)
Definition h_unmarshal (perm : list (bytes * bytes) -> list (bytes * bytes)) (h : heap) (a : nat) (v : json) : res (heap * bool) :=
  match nth_error (h_msgs h) a with
  | None => Panic
  | Some m0 =>
      let (h1, p) := match mc_tr m0 with
                     | Some p => (h, p)
                     | None => (Heap (update (h_msgs h) a (fun x => MCell (mc_comment x) (mc_context x) (Some (length (h_maps h)))))
                                     (h_maps h ++ [[]]), length (h_maps h))
                     end in
      match nth_error (h_maps h1) p with
      | None => Panic
      | Some t =>
          match v with
          | JStr s => Ok (set_map h1 p (cat_set t Other s), true)
          | JNull => Ok (set_map h1 p (cat_set t Other []), true)
          | JObj l =>
              match str_members l with
              | Ok mm =>
                  let m := fold_left set_member (perm (to_map mm)) (JMsg (mc_comment m0) (mc_context m0) (Some t)) in
                  let h2 := set_map h1 p (match j_tr m with Some t' => t' | None => [] end) in
                  Ok (Heap (update (h_msgs h2) a (fun x => MCell (j_comment m) (j_context m) (mc_tr x))) (h_maps h2), true)
              | _ => Ok (h1, false)
              end
          | _ => Ok (h1, false)
          end
      end
  end.

(** catalog/json.go:360-422 (JSONMessage.MarshalJSON): the receiver is a copy of
    the struct, its map is not; an empty map gets an entry. *)
Definition h_marshal (h : heap) (a : nat) : res (heap * json) :=
  match nth_error (h_msgs h) a with
  | None => Panic
  | Some m =>
      match mc_tr m with
      | None => Ok (h, marshal_message (JMsg (mc_comment m) (mc_context m) None))
      | Some p =>
          match nth_error (h_maps h) p with
          | None => Panic
          | Some t =>
              let h' := if Nat.eqb (length t) 0 then set_map h p (cat_set t Other []) else h in
              Ok (h', marshal_message (JMsg (mc_comment m) (mc_context m) (Some t)))
          end
      end
  end.

Section Language.
  (** golang.org/x/text/language.Tag, see LangModel *)
  Variable tag : Type.
  Variable is_root : tag -> bool.
  Variable tag_string : tag -> bytes.
  Variable base : tag -> bytes * bool.
  Variable parent : tag -> tag.
  Variable depth : nat.
  (** catalog/json.go:252-264 (ApplyPluralCategoriesToJSONMessage) *)
  Definition h_apply_language (order : list category) (h : heap) (lang : tag) (msg : option nat) : res heap :=
    match msg with
    | None => Ok h
    | Some a =>
        match nth_error (h_msgs h) a with
        | None => Panic
        | Some m =>
            match mc_tr m with
            | None => Ok h
            | Some _ =>
                do r <- for_language tag is_root tag_string base parent rule_set cldr_built_in depth lang ;
                match fst r with
                | None => Panic
                | Some rs => h_apply order (rs_categories rs) h msg
                end
            end
        end
    end.
End Language.
