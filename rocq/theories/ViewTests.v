(** * The crate's own unit tests of views and data binding, on the model.

    src/view.rs:544-1268 and src/view_model.rs:790-1159.  These are checks of the
    model against the code's documented behaviour, not properties.  The layout
    oracle is a small block layout that is enough for these tests. *)
From stdpp Require Import gmap.
From RecordUpdate Require Import RecordUpdate.
From Verif Require Import Str F32 Res Json PropKey Html Css Element Tree ViewModel Render Update Matching
  Cascade Initial Animation Apply Styling Events Number ReadCss ReadHtml View Load Fragment.

(** ** src/view_model.rs *)
Definition text (n : NodeId) : list Binding := [mkBinding (BText n 0) []].
Definition attr (n : NodeId) (k : string) (i : nat) : list Binding := [mkBinding (BAttribute n k i) []].
Definition repeat (n : NodeId) (z : nat) : list Binding := [mkBinding (BRepeat n 0 z) []].
Definition cond_if (p n : NodeId) : list Binding := [mkBinding (BVisibility p n true) []].
(** [ViewModel::create] and two calls of [bind]: the reactions of the second *)
Definition rebind (bs : Bindings) (model first second : json) : option (list Reaction) :=
  match memorize_array_default "" model ∅ with
  | Ok d =>
      match bind_value (fun _ => "float") bs ∅ d model first "" "" with
      | Ok (m, _, _) => match bind_value (fun _ => "float") bs ∅ d m second "" "" with Ok (_, _, rs) => Some rs | _ => None end
      | _ => None
      end
  | _ => None
  end.
Definition s := JStr.
Definition n (k : N) := JNum (NPos k).

Example test_rebind_root_property_with_undefined :
  rebind [("/description", text 200); ("/name", text 100)] (JObj [("description", JNull); ("name", JNull)])
    (JObj [("description", s "Description..."); ("name", s "Name")]) (JObj [("name", s "Alice")]) =
  Some [RType 200 0 ""; RType 100 0 "Alice"].
Proof. vm_compute. reflexivity. Qed.
Example test_rebind_object_property_with_undefined :
  rebind [("/object/description", text 200); ("/object/name", text 100)] (JObj [("object", JObj [("description", JNull); ("name", JNull)])])
    (JObj [("object", JObj [("description", s "Description..."); ("name", s "Name")])]) (JObj [("object", JObj [("name", s "Alice")])]) =
  Some [RType 200 0 ""; RType 100 0 "Alice"].
Proof. vm_compute. reflexivity. Qed.
Example test_rebind_object_with_null :
  rebind [("/tooltip", cond_if 100 200); ("/tooltip/description", text 400); ("/tooltip/name", text 300)]
    (JObj [("tooltip", JObj [("description", JNull); ("name", JNull)])])
    (JObj [("tooltip", JObj [("description", s "Description..."); ("name", s "Name")])]) (JObj [("tooltip", JNull)]) =
  Some [RType 400 0 ""; RType 300 0 ""; RReattach 100 200 false].
Proof. vm_compute. reflexivity. Qed.
Definition names_bindings : Bindings := [("/names", repeat 100 3); ("/names/0", text 200); ("/names/1", text 300); ("/names/2", text 400)].
Definition names (l : list string) : json := JObj [("names", JArr (map s l))].
Definition names_model : json := JObj [("names", JArr [JNull; JNull; JNull])].
Example test_rebind_simple_array_same_values_reduced_array :
  rebind names_bindings names_model (names ["Alice"; "Boris"]) (names ["Alice"]) = Some [RRepeat 100 0 1 3].
Proof. vm_compute. reflexivity. Qed.
Example test_rebind_simple_array_new_values :
  rebind names_bindings names_model (names ["Alice"; "Boris"]) (names ["Carol"; "David"]) = Some [RType 200 0 "Carol"; RType 300 0 "David"].
Proof. vm_compute. reflexivity. Qed.
Example test_rebind_simple_array_new_values_increased_array :
  rebind names_bindings names_model (names ["Alice"]) (names ["Boris"; "Carol"]) =
  Some [RRepeat 100 0 2 3; RType 200 0 "Boris"; RType 300 0 "Carol"].
Proof. vm_compute. reflexivity. Qed.
Definition items_bindings : Bindings :=
  [("/items", repeat 100 3); ("/items/0/id", attr 200 "id" 0); ("/items/0/name", text 200); ("/items/1/id", attr 300 "id" 0);
   ("/items/1/name", text 300); ("/items/2/id", attr 400 "id" 0); ("/items/2/name", text 400)].
Definition items_of (l : list (json * json)) : json := JObj [("items", JArr (map (fun e => JObj [("id", fst e); ("name", snd e)]) l))].
Definition items_model : json := items_of [(JNull, JNull); (JNull, JNull); (JNull, JNull)].
Example test_rebind_objects_array_same_values_reduced_array :
  rebind items_bindings items_model (items_of [(n 0, s "Alice"); (n 1, s "Boris")]) (items_of [(n 0, s "Alice")]) = Some [RRepeat 100 0 1 3].
Proof. vm_compute. reflexivity. Qed.
Example test_rebind_objects_array_new_values_increased_array :
  rebind items_bindings items_model (items_of [(n 0, s "Alice")]) (items_of [(n 1, s "Boris"); (n 2, s "Carol")]) =
  Some [RRepeat 100 0 2 3; RBind 200 "id" 0 "1"; RType 200 0 "Boris"; RBind 300 "id" 0 "2"; RType 300 0 "Carol"].
Proof. vm_compute. reflexivity. Qed.

(** ** src/view.rs *)

(** A block layout: a box is as large as its style says or as its content and
    padding need; children are stacked, absolute ones are placed by [left] and
    [top]. *)
Definition pad (l : LP) : f32 := match l with LPLength f => f | LPPercent _ => f0 end.
Definition ins (l : LPA) : f32 := match l with LPALength f => f | _ => f0 end.
Definition fmaxi (a b : f32) : f32 := if flt a b then b else a.
Definition is_abs (x : Node) : bool := match ts_position (n_style x) with PosAbsolute => true | _ => false end.
Fixpoint box (fuel : nat) (t : Tree) (n : NodeId) : vec2 :=
  match fuel, t_nodes t !! n with
  | S fuel, Some x =>
      let st := n_style x in
      let inner := foldl (fun (acc : vec2) c => match t_nodes t !! c with
        | Some y => if is_abs y then acc else let b := box fuel t c in (fmaxi (fst acc) (fst b), fadd (snd acc) (snd b))
        | None => acc end) (f0, f0) (n_children x) in
      let w := fadd (fst inner) (fadd (pad (r_left (ts_padding st))) (pad (r_right (ts_padding st)))) in
      let h := fadd (snd inner) (fadd (pad (r_top (ts_padding st))) (pad (r_bottom (ts_padding st)))) in
      (match sz_width (ts_size st) with DimLength f => f | _ => w end, match sz_height (ts_size st) with DimLength f => f | _ => h end)
  | _, _ => (f0, f0)
  end.
Fixpoint before (fuel : nat) (t : Tree) (n : NodeId) (cs : list NodeId) (y : f32) : f32 :=
  match cs with
  | [] => y
  | c :: cs => if Nat.eqb c n then y else before fuel t n cs (match t_nodes t !! c with Some x => if is_abs x then y else fadd y (snd (box fuel t c)) | None => y end)
  end.
Definition stack (t : Tree) (n : NodeId) : Layout :=
  let size := box 6 t n in
  let loc := match t_nodes t !! n with
    | Some x => match n_parent x ≫= fun p => t_nodes t !! p with
        | Some y => let st := n_style y in let i := ts_inset (n_style x) in
            if is_abs x then (ins (r_left i), ins (r_top i))
            else (fadd (pad (r_left (ts_padding st))) (ins (r_left i)), fadd (before 6 t n (n_children y) (pad (r_top (ts_padding st)))) (ins (r_top i)))
        | None => (f0, f0)
        end
    | None => (f0, f0)
    end in
  mkLayout loc size size.
Definition lab : Externals := mkExternals (fun _ => "float") (fun s => s) (fun _ => None) (fun s => map_to_list s) stack ∅ true.

Definition lit (s : string) : f32 := match parse_f32 s with Some f => f | None => f0 end.
Definition input (t : string) : Input := mkInput (lit t) (lit "800", lit "600") [].
Definition event (e : InputEvent) : Input := mkInput f0 (lit "800", lit "600") [e].
Definition move (x y : Z) : InputEvent := IMouseMove (f32_of_Z x, f32_of_Z y).

(** load, update, and observe the view and the outputs *)
Definition observe {A} (html css : string) (hist : list (Input * json)) (f : View -> list Output -> A) : option A :=
  match from_html lab 30 html css with
  | Ok v => match updates (reading lab) 30 v hist with Ok (v, os) => Some (f v os) | _ => None end
  | _ => None
  end.
(** the children of an element *)
Definition kids (v : View) (n : NodeId) : list Element :=
  match get_ctx (v_tree v) n with
  | Some e => match fragment_children (v_tree v) e with Ok l => l | _ => [] end
  | None => []
  end.
Definition id_of (e : Element) : option string := e_attrs e !! "id".
Definition at_ (v : vec2) (x y : Z) : bool := feq (fst v) (f32_of_Z x) && feq (snd v) (f32_of_Z y).
(** the width of the first child after each update *)
Fixpoint widths (v : View) (hist : list (Input * json)) : list f32 :=
  match hist with
  | [] => []
  | (i, x) :: hist =>
      match update (reading lab) 30 v i x with
      | Ok (v, _) => match kids v (v_body v) with e :: _ => fst (e_size e) | [] => f0 end :: widths v hist
      | _ => []
      end
  end.
Fixpoint same (xs : list f32) (ys : list Z) : bool :=
  match xs, ys with [], [] => true | x :: xs, y :: ys => feq x (f32_of_Z y) && same xs ys | _, _ => false end.
Definition timeline (html css : string) (hist : list (string * json)) (expected : list Z) : bool :=
  match from_html lab 30 html css with
  | Ok v => same (widths v (map (fun e => (input (fst e), snd e)) hist)) expected
  | _ => false
  end.
Definition msg (k v : string) : json := JObj [(k, JStr v)].
Definition all_messages (os : list Output) : list json := List.concat (map messages os).

Example test_template_with_array_alias : observe
  "<html>
            <template id=""my-component"">
                <div *item=""5 {items}"" @id=""{item}""></div>
            </template>
            <body>
                <div id=""start""></div>
                <link href=""#my-component"" +items=""{object.items}"" />
                <div id=""end""></div>
            </body>
        </html>"
  ""
  [(input "0", JObj [("object", JObj [("items", JArr [JStr "a"; JStr "b"; JStr "c"])])])]
  (fun v os => map id_of (kids v (v_body v))) = Some [Some "start"; Some "a"; Some "b"; Some "c"; Some "end"].
Proof. vm_compute. reflexivity. Qed.

Example test_template_with_repeat : observe
  "<html>
            <template id=""my-component"">
                <div @id=""{item}""></div>
            </template>
            <body>
                <div id=""start""></div>
                <link href=""#my-component"" *item=""5 {items}"" />
                <div id=""end""></div>
            </body>
        </html>"
  ""
  [(input "0", JObj [("items", JArr [JStr "a"; JStr "b"; JStr "c"])])]
  (fun v os => map id_of (kids v (v_body v))) = Some [Some "start"; Some "a"; Some "b"; Some "c"; Some "end"].
Proof. vm_compute. reflexivity. Qed.

Example test_apply_complex_style_with_data_attributes : observe
  "<html>
        <body>
            <div @data-function=""{function}"" #data-target=""{is_target}"" class=""slot placeholder""></div>
        </body>
        </html>"
  "
            .slot {
                position: absolute;
                left: 0;
                width: 10px;
                height: 10px;
            }
            .slot.placeholder {
                width: 20px;
                height: 20px;
            }
            .slot[data-function=""Primary""] {
                left: 10px;
                width: 30px;
            }
            .slot[data-target] {
                width: 40px;
            }
        "
  [(input "0", JObj [("function", JStr "Primary"); ("is_target", JBool true)])]
  (fun v os => map (fun e => at_ (e_position e) 10 0 && at_ (e_size e) 40 20) (kids v (v_body v))) = Some [true].
Proof. vm_compute. reflexivity. Qed.

Example test_url_path_resolving : observe
  "<html><body><div></div></body></html>"
  "
            div {
                background-image: url(""./images/icon.png"");
            }
        "
  [(input "0", JObj [])]
  (fun v os => map (fun e => map bg_image (e_backgrounds e)) (kids v (v_body v))) = Some [[Some "./images/icon.png"]].
Proof. vm_compute. reflexivity. Qed.

Example test_element_position_after_conditional_rerender : observe
  "
        <html>
        <body>
            <div ?=""{test_a}"" id=""a""></div>
            <div ?=""{test_b}"" id=""b""></div>
            <div ?=""{test_c}"" id=""c""></div>
        </body>
        </html>"
  "
            div {
                height: 10px;
            }
        "
  [(input "0", JObj [("test_a", JBool true); ("test_b", JBool false); ("test_c", JBool true)]); (input "0", JObj [("test_a", JBool true); ("test_b", JBool true); ("test_c", JBool true)])]
  (fun v os => map (fun p : Element * Z => (id_of (fst p), at_ (e_position (fst p)) 0 (snd p))) (zip (kids v (v_body v)) [0; 10; 20]%Z)) = Some [(Some "a", true); (Some "b", true); (Some "c", true)].
Proof. vm_compute. reflexivity. Qed.

Example test_relative_position_in_relative_fragment : observe
  "<html>
        <body>
            <div class=""panel"">
                <div class=""container"">
                    <div class=""item""></div>
                </div>
            </div>
        </body>
        </html>"
  "
            body {
                padding-left: 15px;
                padding-top: 17px;
            }
            .panel {
                position: relative;
                padding: 8px;
            }
            .container {
                position: relative;
            }
            .item {
                position: relative;
                width: 32px;
                height: 32px;
            }
        "
  [(input "0", JObj [])]
  (fun v os => match get_ctx (v_tree v) (v_body v), list.last (kids v (v_body v)) with
     | Some body, Some panel => match kids v (e_node panel) with
         | [container] => match kids v (e_node container) with
             | [item] => [at_ (e_size body) 63 65; at_ (e_position panel) 15 17; at_ (e_position container) 23 25; at_ (e_size container) 32 32; at_ (e_position item) 23 25]
             | _ => [] end
         | _ => [] end
     | _, _ => [] end) = Some [true; true; true; true; true].
Proof. vm_compute. reflexivity. Qed.

Example test_relative_position_in_absolute_fragment_after_relative : observe
  "<html>
        <body>
            <div class=""relative""></div>
            <div class=""panel"">
                <div class=""container"">
                    <div class=""item""></div>
                </div>
            </div>
        </body>
        </html>"
  "
            body { }
            .relative {
                width: 10px;
                height: 10px;
            }
            .panel {
                position: absolute;
                left: 15px;
                top: 17px;
                padding: 8px;
            }
            .container {
                position: relative;
            }
            .item {
                position: relative;
                width: 32px;
                height: 32px;
            }
        "
  [(input "0", JObj [])]
  (fun v os => match get_ctx (v_tree v) (v_body v), list.last (kids v (v_body v)) with
     | Some body, Some panel => match kids v (e_node panel) with
         | [container] => match kids v (e_node container) with
             | [item] => [at_ (e_size body) 10 10; at_ (e_position panel) 15 17; at_ (e_position container) 23 25; at_ (e_size container) 32 32; at_ (e_position item) 23 25]
             | _ => [] end
         | _ => [] end
     | _, _ => [] end) = Some [true; true; true; true; true].
Proof. vm_compute. reflexivity. Qed.

Example test_relative_position_after_negative_condition_binding : observe
  "<html>
        <body>
            <div class=""container"">
                <div !=""{condition}"" class=""item""></div>
            </div>
        </body>
        </html>"
  "
            .container {
                width: 48px;
                height: 48px;
                padding: 8px;
            }
            .item {
                width: 32px;
                height: 32px;
            }
        "
  [(input "0", JObj [("condition", JBool false)])]
  (fun v os => map (fun c => (at_ (e_size c) 48 48, map (fun i => at_ (e_position i) 8 8) (kids v (e_node c)))) (kids v (v_body v))) = Some [(true, [true])].
Proof. vm_compute. reflexivity. Qed.

Example test_visibility : observe
  "<html>
        <body>
            <div class=""visible""></div>
            <div class=""hidden"" ^onmousedown=""B""></div>
            <div class=""visible"" ^onmousedown=""C""></div>
        </body>
        </html>"
  "
            div {
                width: 32px;
                height: 32px;
            }
            .visible {
                visibility: visible;
            }
            .hidden {
                visibility: hidden;
            }
        "
  [(mkInput f0 (lit "800", lit "600") [move 20 33; IMouseButtonDown MBLeft; move 20 65; IMouseButtonDown MBLeft], JObj [])]
  (fun v os => (map (fun p : Element * Z => (at_ (e_position (fst p)) 0 (snd p), e_visible (fst p))) (zip (kids v (v_body v)) [0; 32; 64]%Z), all_messages os)) = Some ([(true, true); (true, false); (true, true)], [JStr "C"]).
Proof. vm_compute. reflexivity. Qed.

Example test_nested_positive_condition_binding_with_nullable : observe
  "
        <html>
            <body>
                <div ?=""{visible}"" +item=""{nested}"">
                    <header>Nested Item</header>
                    <div ?=""{item.prop_a}"">Property A: {item.prop_a}</div>
                    <div ?=""{item.prop_b}"">Property B: {item.prop_b}</div>
                </div>
            </body>
        </html>"
  ""
  [(input "0", JObj [("nested", JObj [("prop_a", JNum (NPos 0)); ("prop_b", JNum (NPos 42))]); ("visible", JBool true)]); (input "0", JObj [("nested", JNull); ("visible", JBool false)])]
  (fun v os => List.length (kids v (v_body v))) = Some 0.
Proof. vm_compute. reflexivity. Qed.

Example test_null_object_condition_rendering : observe
  "
        <html>
        <body>
            <div id=""a"" ?=""{object}"">{object.name}</div>
            <div id=""b""></div>
        </body>
        </html>"
  ""
  [(input "0", JObj [("object", JNull)])]
  (fun v os => map id_of (kids v (v_body v))) = Some [Some "b"].
Proof. vm_compute. reflexivity. Qed.

Example test_transition_simple_forward_by_style : timeline
  "
        <html>
            <body>
                <div @style=""width: {width}px;""></div>
            </body>
        </html>"
  "
            div {
                width: 0px;
                height: 20px;
                transition: width 1s;
            }
        "
  [("0.1", JObj [("width", JNum (NPos 0))]); ("0.1", JObj [("width", JNum (NPos 0))]); ("0.1", JObj [("width", JNum (NPos 100))]); ("0.1", JObj [("width", JNum (NPos 100))]); ("0.1", JObj [("width", JNum (NPos 100))]); ("0.8", JObj [("width", JNum (NPos 100))]); ("0.1", JObj [("width", JNum (NPos 100))])]
  [0; 0; 0; 10; 20; 100; 100]%Z = true.
Proof. vm_compute. reflexivity. Qed.

Example test_transition_simple_forward_by_class : timeline
  "
        <html>
            <body>
                <div @class=""{class}""></div>
            </body>
        </html>"
  "
            div {
                width: 0px;
                height: 20px;
                transition: width 1s;
            }
            div.open {
                width: 100px;
            }
        "
  [("0.1", JObj [("class", JStr "")]); ("0.1", JObj [("class", JStr "")]); ("0.1", JObj [("class", JStr "open")]); ("0.1", JObj [("class", JStr "open")]); ("0.1", JObj [("class", JStr "open")]); ("0.8", JObj [("class", JStr "open")]); ("0.1", JObj [("class", JStr "open")])]
  [0; 0; 0; 10; 20; 100; 100]%Z = true.
Proof. vm_compute. reflexivity. Qed.

Example test_transition_simple_mixed_by_class : timeline
  "
        <html>
            <body>
                <div @class=""{class}""></div>
            </body>
        </html>"
  "
            div {
                width: 0px;
                height: 20px;
                transition: width 1s;
            }
            div.open {
                width: 100px;
            }
        "
  [("0.1", JObj [("class", JStr "")]); ("0.1", JObj [("class", JStr "open")]); ("0.1", JObj [("class", JStr "open")]); ("0.1", JObj [("class", JStr "")]); ("0.1", JObj [("class", JStr "")]); ("0.8", JObj [("class", JStr "")]); ("0.1", JObj [("class", JStr "")])]
  [0; 0; 10; 20; 18; 2; 0]%Z = true.
Proof. vm_compute. reflexivity. Qed.

Example test_none_pointer_events : observe
  "<html>
        <body ^onmouseenter=""enter {body}"" ^onmouseleave=""leave {body}"">
            <div ^onmouseenter=""enter {a}"" ^onmouseleave=""leave {a}""></div>
        </body>
        </html>"
  "
            body {
                pointer-events: none;
            }
            div {
                pointer-events: auto;
                width: 32px;
                height: 32px;
            }
        "
  [(event (move 20 20), JObj [("a", JStr "A"); ("body", JStr "Body")]); (event (move 20 40), JObj [("a", JStr "A"); ("body", JStr "Body")])]
  (fun v os => map (fun o => (is_input_captured o, messages o)) (drop 1 os)) = Some [(false, [msg "leave" "A"])].
Proof. vm_compute. reflexivity. Qed.

Example test_mouse_click_event : observe
  "<html>
        <body>
            <div ^onclick=""Hello {name}""></div>
        </body>
        </html>"
  "
            div {
                width: 32px;
                height: 32px;
            }
        "
  [(event (move 20 20), JObj [("name", JStr "Alice")]); (event (IMouseButtonDown MBLeft), JObj [("name", JStr "Alice")]); (event (IMouseButtonUp MBLeft), JObj [("name", JStr "Alice")])]
  (fun v os => map (fun o => (is_input_captured o, messages o)) (drop 2 os)) = Some [(true, [msg "Hello" "Alice"])].
Proof. vm_compute. reflexivity. Qed.

Example test_mouse_enter_leave_events_forward : observe
  "<html>
        <body>
            <div ^onmouseenter=""enter {a}"" ^onmouseleave=""leave {a}""></div>
            <div ^onmouseenter=""enter {b}"" ^onmouseleave=""leave {b}""></div>
        </body>
        </html>"
  "
            div {
                width: 32px;
                height: 32px;
            }
        "
  [(event (move 100 20), JObj [("a", JStr "A"); ("b", JStr "B")]); (event (move 20 20), JObj [("a", JStr "A"); ("b", JStr "B")]); (event (move 20 40), JObj [("a", JStr "A"); ("b", JStr "B")])]
  (fun v os => all_messages os) = Some [msg "enter" "A"; msg "leave" "A"; msg "enter" "B"].
Proof. vm_compute. reflexivity. Qed.

Example test_mouse_enter_leave_over_border : observe
  "<html>
        <body>
            <div ^onmouseenter=""enter {a}"" ^onmouseleave=""leave {a}""></div>
            <div ^onmouseenter=""enter {b}"" ^onmouseleave=""leave {b}""></div>
        </body>
        </html>"
  "
            div {
                width: 32px;
                height: 32px;
            }
        "
  [(event (move 20 20), JObj [("a", JStr "A"); ("b", JStr "B")]); (event (move 20 32), JObj [("a", JStr "A"); ("b", JStr "B")]); (event (move 20 40), JObj [("a", JStr "A"); ("b", JStr "B")])]
  (fun v os => all_messages os) = Some [msg "enter" "A"; msg "leave" "A"; msg "enter" "B"].
Proof. vm_compute. reflexivity. Qed.

Example test_mouse_enter_leave_events_backward : observe
  "<html>
        <body>
            <div ^onmouseenter=""enter {a}"" ^onmouseleave=""leave {a}""></div>
            <div ^onmouseenter=""enter {b}"" ^onmouseleave=""leave {b}""></div>
        </body>
        </html>"
  "
            div {
                width: 32px;
                height: 32px;
            }
        "
  [(event (move 100 40), JObj [("a", JStr "A"); ("b", JStr "B")]); (event (move 20 40), JObj [("a", JStr "A"); ("b", JStr "B")]); (event (move 20 20), JObj [("a", JStr "A"); ("b", JStr "B")])]
  (fun v os => all_messages os) = Some [msg "enter" "B"; msg "leave" "B"; msg "enter" "A"].
Proof. vm_compute. reflexivity. Qed.

Example test_mouse_enter_leave_events_via_animation : observe
  "<html>
        <body>
            <div ^onmouseenter=""enter {a}"" ^onmouseleave=""leave {a}""></div>
        </body>
        </html>"
  "
            div {
                width: 32px;
                height: 32px;
                animation: 1s linear HeightAnimation;
            }
            @keyframes HeightAnimation {
                0% {
                    height: 32px;
                }
                50% {
                    height: 64px;
                }
                100% {
                    height: 32px;
                }
            }
        "
  ((event (move 20 40), JObj [("a", JStr "A")]) :: map (fun t => (input t, JObj [("a", JStr "A")])) ["0"; "0.49"; "1"])
  (fun v os => map (fun o => (is_input_captured o, messages o)) (drop 3 os)) = Some [(false, [msg "leave" "A"])].
Proof. vm_compute. reflexivity. Qed.
