(** * The crate's own unit tests of the readers, on the model.

    src/html/reader.rs:343-600 and src/css/reader.rs:308-620.  These are checks
    of the model against the code's documented behaviour, not properties. *)
From stdpp Require Import gmap.
From Verif Require Import Str F32 Res Json PropKey Html Css Number ReadCss ReadHtml.

(** ** src/html/reader.rs *)
Definition t := TSString.
Definition binder (path : string) : Binder := mkBinder (split_on "." path) [].
Definition b (path : string) : TextSpan := TSBinder (binder path).
Definition html {A} (s : string) (f : Html -> A) : option A := match read_html s with Ok h => Some (f h) | _ => None end.
Definition first_text (h : Html) : option TextBinding := head (h_children h) ≫= h_text.

Example test_ignore_script_tag : html "<script>
                function doSomething() {}
                for (let i = 0; i < 27; i++) {
                    doSomething();
                }
            </script>" (fun h => List.length (h_children h)) = Some 0.
Proof. vm_compute. reflexivity. Qed.
Example test_parse_img_tag : html "<img alt=""member.png"" src=""./images/member.png""/>" h_tag = Some "img".
Proof. vm_compute. reflexivity. Qed.
Example test_binding_binder_with_whitespaces : html "<div>{ name }</div>" first_text = Some (Some [b "name"]).
Proof. vm_compute. reflexivity. Qed.
Example test_binding_text_one_span : html "<div>Hello, {name}</div>" first_text = Some (Some [t "Hello, "; b "name"]).
Proof. vm_compute. reflexivity. Qed.
Example test_binding_text_whitespace_before_sibling_element :
  html "<div>Hello, {binding} <span>Element Text</span></div>" first_text = Some (Some [t "Hello, "; b "binding"; t " "]).
Proof. vm_compute. reflexivity. Qed.
Example test_binding_text_multiple_spans_with_whitespaces :
  html "<div>Hello,  {first}  {last}</div>" first_text = Some (Some [t "Hello,  "; b "first"; t "  "; b "last"]).
Proof. vm_compute. reflexivity. Qed.
Example test_binding_text_no_space : html "<div>+{property}</div>" first_text = Some (Some [t "+"; b "property"]).
Proof. vm_compute. reflexivity. Qed.
Example test_binding_text_multiple_spans_no_space : html "<div>Hello, {first}{last}</div>" first_text = Some (Some [t "Hello, "; b "first"; b "last"]).
Proof. vm_compute. reflexivity. Qed.
Example test_binding_text_ends_with_whitespace : html "<div>Hello, {binding} </div>" first_text = Some (Some [t "Hello, "; b "binding"; t " "]).
Proof. vm_compute. reflexivity. Qed.
Example test_binding_text_multilines : html "<div>
                Line 1
                Hello, {world}!
                Line 3
            </div>" first_text = Some (Some [t "Line 1 Hello, "; b "world"; t "! Line 3"]).
Proof. vm_compute. reflexivity. Qed.
Example test_binding_text_multilines_before_sibling : html "<div>
                Line 1
                Hello, {world}!
                <div>something</div>
            </div>" first_text = Some (Some [t "Line 1 Hello, "; b "world"; t "! "]).
Proof. vm_compute. reflexivity. Qed.
Example test_binding_text_empty_multilines : html "<div>
                {world}
            </div>" first_text = Some (Some [b "world"]).
Proof. vm_compute. reflexivity. Qed.
Example test_binding_alias : html "<input +option=""{context.config.option}"" />" h_bindings = Some [EBAlias "option" (binder "context.config.option")].
Proof. vm_compute. reflexivity. Qed.
Example test_binding_tag : html "<input #disabled=""{disabled}"" />" h_bindings = Some [EBTag "disabled" (binder "disabled")].
Proof. vm_compute. reflexivity. Qed.
Example test_binding_control_if : html "<input ?=""{visible}"" />" h_bindings = Some [EBVisibility true (binder "visible")].
Proof. vm_compute. reflexivity. Qed.
Example test_binding_control_else : html "<input !=""{visible}"" />" h_bindings = Some [EBVisibility false (binder "visible")].
Proof. vm_compute. reflexivity. Qed.
Example test_binding_attribute : html "<input @value=""{name}"" />" h_bindings = Some [EBAttribute "value" [b "name"]].
Proof. vm_compute. reflexivity. Qed.
Example test_binding_attribute_style : html "<input @styles=""top: {pivot.x}px;"" />" h_bindings =
  Some [EBAttribute "styles" [t "top: "; b "pivot.x"; t "px;"]].
Proof. vm_compute. reflexivity. Qed.
Example test_binding_attribute_style_multiple_properties :
  html "<input @styles=""width: {width}px; height: {height}px;"" />" h_bindings =
  Some [EBAttribute "styles" [t "width: "; b "width"; t "px; height: "; b "height"; t "px;"]].
Proof. vm_compute. reflexivity. Qed.
Example test_binding_repeat : html "<option *option=""10 {options}""></option>" h_bindings = Some [EBRepeat "option" 10 (binder "options")].
Proof. vm_compute. reflexivity. Qed.
Example test_binding_repeat_single_number_count :
  html "<div *effect=""8 {effects}""> {effect} </div>" h_bindings = Some [EBRepeat "effect" 8 (binder "effects")].
Proof. vm_compute. reflexivity. Qed.
Example test_binding_repeat_with_shorthand : html "<option *_=""10 {options}""></option>" h_bindings = Some [EBRepeat "_" 10 (binder "options")].
Proof. vm_compute. reflexivity. Qed.
Example test_binding_callback_binding_argument :
  html "<button ^onclick=""{my_data}""></button>" h_bindings = Some [EBCallback "onclick" [CABinder (binder "my_data")]].
Proof. vm_compute. reflexivity. Qed.
Example test_binding_callback_event_argument :
  html "<button ^onclick=""MyMessage $event""></button>" h_bindings = Some [EBCallback "onclick" [CAKeyword "MyMessage"; CAEvent]].
Proof. vm_compute. reflexivity. Qed.

(** ** src/css/reader.rs.  Floats are compared with [==], as [assert_eq] does. *)
Fixpoint def_eq (a b : Definition_) : bool :=
  match a, b with
  | DVar x, DVar y => String.eqb x y
  | DFunction f xs, DFunction g ys =>
      String.eqb f g && (fix go xs ys := match xs, ys with [], [] => true | x :: xs, y :: ys => def_eq x y && go xs ys | _, _ => false end) xs ys
  | DExplicit x, DExplicit y => cv_eq x y
  | _, _ => false
  end.
Fixpoint list_eqb {A} (f : A -> A -> bool) (xs ys : list A) : bool :=
  match xs, ys with [], [] => true | x :: xs, y :: ys => f x y && list_eqb f xs ys | _, _ => false end.
Definition decl_eq (a b : Declaration) : bool :=
  match a, b with
  | DeclVariable x, DeclVariable y => String.eqb (v_key x) (v_key y) && list_eqb def_eq (v_shorthand x) (v_shorthand y)
  | DeclProperty x, DeclProperty y => bool_decide (p_key x = p_key y) && list_eqb (list_eqb def_eq) (p_values x) (p_values y)
  | _, _ => false
  end.
Definition style_is (s : string) (l : list Declaration) : bool :=
  match read_inline_css s with Ok l' => list_eqb decl_eq l' l | _ => false end.
Definition first_short (s : string) (l : list Definition_) : bool :=
  match read_css s with
  | Ok (mkCss (mkStyle _ (DeclProperty (mkProperty _ (v :: _)) :: _) :: _) _) => list_eqb def_eq v l
  | _ => false
  end.
Definition selectors (s : string) : option (list Simple) :=
  match read_css s with Ok (mkCss (mkStyle (c :: _) _ :: _) _) => Some c | _ => None end.
(** the float nearest to a decimal literal, as [rustc] reads it *)
Definition lit (s : string) : f32 := default f0 (parse_f32 s).
Definition prop (k : PropertyKey) (l : list Definition_) : Declaration := DeclProperty (mkProperty k [l]).
Definition zero := DExplicit CZero.
Definition px (n : Z) := DExplicit (CDimension (mkDim (f32_of_Z n) UPx)).
Definition em (s : string) := DExplicit (CDimension (mkDim (lit s) UEm)).
Definition kw (s : string) := DExplicit (CKeyword s).
Definition num (s : string) := DExplicit (CNumber (lit s)).
Definition perc (s : string) := DExplicit (CPercentage (lit s)).
Definition txt (s : string) := DExplicit (CStr s).
Definition ts (s : string) := DExplicit (CTime (lit s)).

Example test_inline_style_one_property : style_is "width: 0;" [prop KWidth [zero]] = true.
Proof. vm_compute. reflexivity. Qed.
Example test_inline_style_no_semicolumn : style_is "width: 0" [] = true.
Proof. vm_compute. reflexivity. Qed.
Example test_inline_style_two_properties : style_is "width: 0; height: 0;" [prop KWidth [zero]; prop KHeight [zero]] = true.
Proof. vm_compute. reflexivity. Qed.
Example test_component_value_var : first_short "div { background-color: var(--main-bg-color); }" [DVar "--main-bg-color"] = true.
Proof. vm_compute. reflexivity. Qed.
Example test_component_value_shorthand : first_short "div { padding: 40px 30px; }" [px 40; px 30] = true.
Proof. vm_compute. reflexivity. Qed.
Example test_component_value_shorthand_var : first_short "div { padding: 40px var(--padding); }" [px 40; DVar "--padding"] = true.
Proof. vm_compute. reflexivity. Qed.
Example test_component_value_list : first_short "div { font-family: monospaced, sans-serif; }" [kw "monospaced"] = true.
Proof. vm_compute. reflexivity. Qed.
Example test_component_value_list_with_var : first_short "div { font-family: var(--default-font), sans-serif; }" [DVar "--default-font"] = true.
Proof. vm_compute. reflexivity. Qed.
Example test_component_value_list_with_shorthands :
  first_short "div { box-shadow: -1em 0 0.4em olive, 3px 3px red; }" [em "-1"; zero; em "0.4"; kw "olive"] = true.
Proof. vm_compute. reflexivity. Qed.
Example test_component_value_list_with_shorthands_with_var :
  first_short "div { box-shadow:  -1em 0 0.4em var(--color), 3px 3px red; }" [em "-1"; zero; em "0.4"; DVar "--color"] = true.
Proof. vm_compute. reflexivity. Qed.
Example test_component_value_rgba_function :
  first_short "div { background: rgba(31, 37, 38, 0.4); }" [DFunction "rgba" [num "31"; num "37"; num "38"; num "0.4"]] = true.
Proof. vm_compute. reflexivity. Qed.
Example test_component_value_function_url_string :
  first_short "div { mask-image: url(""masks.svg#mask1""); }" [DFunction "url" [txt "masks.svg#mask1"]] = true.
Proof. vm_compute. reflexivity. Qed.
Example test_component_value_function_single_value : first_short "div { transform: translateX(20px); }" [DFunction "translateX" [px 20]] = true.
Proof. vm_compute. reflexivity. Qed.
Example test_component_value_function_single_value_var :
  first_short "div { transform: translateX(var(--offset)); }" [DFunction "translateX" [DVar "--offset"]] = true.
Proof. vm_compute. reflexivity. Qed.
Example test_component_value_function_multiple_values :
  first_short "div { transform: translate(20px, 40px); }" [DFunction "translate" [px 20; px 40]] = true.
Proof. vm_compute. reflexivity. Qed.
Example test_component_value_function_multiple_values_var :
  first_short "div { transform: translate(var(--offset), 40px); }" [DFunction "translate" [DVar "--offset"; px 40]] = true.
Proof. vm_compute. reflexivity. Qed.
Example test_component_value_rgba :
  first_short "div { background-color: rgba(133, 155, 155, 0.5); }" [DFunction "rgba" [num "133"; num "155"; num "155"; num "0.5"]] = true.
Proof. vm_compute. reflexivity. Qed.
Example test_zero_value : first_short "div { padding: 0; }" [zero] = true.
Proof. vm_compute. reflexivity. Qed.
Example test_zero_percent_value : first_short "div { border-radius: 0%;}" [perc "0"] = true.
Proof. vm_compute. reflexivity. Qed.
Example test_percent_value : first_short "div { border-radius: 50%;}" [perc "0.5"] = true.
Proof. vm_compute. reflexivity. Qed.
Example test_string_value : first_short "div { content: ""abc""; }" [txt "abc"] = true.
Proof. vm_compute. reflexivity. Qed.
Example test_matcher_exist : selectors "[data-something] {}" = Some [SAttribute "data-something" MExist ""].
Proof. vm_compute. reflexivity. Qed.
Example test_matcher_equal_string : selectors "[data-something=""abc""] {}" = Some [SAttribute "data-something" MEqual "abc"].
Proof. vm_compute. reflexivity. Qed.
Example test_matcher_equal_ident : selectors "[data-something=abc] {}" = Some [SAttribute "data-something" MEqual "abc"].
Proof. vm_compute. reflexivity. Qed.
Example test_animation_shorthand :
  first_short "div { animation: 1s linear HeightAnimation; }" [ts "1"; kw "linear"; kw "HeightAnimation"] = true.
Proof. vm_compute. reflexivity. Qed.
Example test_animation_simple_keyframes :
  match read_css "
            @keyframes HeightAnimation {
                0% {
                    line-height: 1.0;
                }
                50% {
                    line-height: 2.0;
                }
                100% {
                    line-height: 3.0;
                }
            }
        " with
  | Ok c => match css_animations c !! "HeightAnimation" with
            | Some (mkAnimation n ks) =>
                n = "HeightAnimation" /\ size (css_animations c) = 1 /\ map kf_step ks = [0; 50; 100]%Z /\
                list_eqb (list_eqb decl_eq) (map kf_declaration ks)
                  [[prop KLineHeight [num "1"]]; [prop KLineHeight [num "2"]]; [prop KLineHeight [num "3"]]] = true
            | None => False
            end
  | _ => False
  end.
Proof. vm_compute. repeat split. Qed.
