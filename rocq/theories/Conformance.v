(** The test suite of the library (/repo/tests/test_mathml_to_latex.py over /repo/tests/mathml.py), run on the model from the
    text up, with the parser of ModelExpat.v.  Tests, not proofs.  Each entry: name of the test (for the pairs of
    [input_expected_pairs] their position), text, expected output ([None]: an exception).  The expected result of
    test_should_fail_if_invalid_mathml_is_given is outside the fragment of the parser; the model raises, too. *)
From Coq Require Import String.
From Verif Require Import ModelExpat.
Local Open Scope string_scope.
Local Open Scope list_scope.

(** Literals in this file are UTF-8. *)
Fixpoint utf8 (bytes : list N) : str :=
  match bytes with
  | a :: r =>
      if (a <? 128)%N then a :: utf8 r
      else if (a <? 224)%N then
        match r with b :: r' => ((a - 192) * 64 + (b - 128))%N :: utf8 r' | _ => [] end
      else if (a <? 240)%N then
        match r with b :: c :: r' => ((a - 224) * 4096 + (b - 128) * 64 + (c - 128))%N :: utf8 r' | _ => [] end
      else
        match r with b :: c :: d :: r' => ((a - 240) * 262144 + (b - 128) * 4096 + (c - 128) * 64 + (d - 128))%N :: utf8 r' | _ => [] end
  | [] => []
  end.
Definition passes (t : string * string * option string) : bool :=
  match t with
  | (_, xml, expected) =>
      match snd (mathml_to_latex (fun _ => false) parse_text (utf8 (lit xml)) []), expected with
      | Ok s, Some e => str_eqb s (utf8 (lit e))
      | Raise _, None => true
      | _, _ => false
      end
  end.
Definition tests : list (string * string * option string) := [
("test_convert_mi_to_simple_text_with_root", "
<root><math><mi>a</mi></math></root>
", Some "a");
("test_convert_mi_to_simple_text_without_root", "
<math xmlns=""http:#www.w3.org/1998/Math/MathML"">
  <mi>b</mi>
</math>
", Some "b");
("test_add_space_between_mi_tags", "
<math xmlns=""http:#www.w3.org/1998/Math/MathML"">
  <mi mathvariant=""normal"">Δ</mi>
  <mi>x</mi>
</math>
", Some "\Delta x");
("test_convert_mi_with_double_struck_attribute", "
<math xmlns=""http:#www.w3.org/1998/Math/MathML"">
  <msup>
    <mrow>
      <mi mathvariant=""double-struck"">R</mi>
    </mrow>
    <mrow>
      <mi>n</mi>
    </mrow>
  </msup>
</math>
", Some "\mathbb{R}^{n}");
("test_convert_mi_with_space", "
<root>
  <math>
    <mi> a </mi>
  </math>
</root>
", Some "a");
("test_convert_mi_with_special_char_to_tex", "
<root>
  <math>
    <mi> &#x221E; </mi>
  </math>
</root>
", Some "\infty");
("test_add_space_between_mis", "
<math xmlns=""http:#www.w3.org/1998/Math/MathML"">
  <mi mathvariant=""normal"">Δ</mi>
  <mi>x</mi>
</math>
", Some "\Delta x");
("test_convert_mo_to_simple_operator", "
<root>
  <math>
    <mo>+</mo>
  </math>
</root>
", Some "+");
("test_convert_mo_divider_operator", "
<math>
  <mi>x</mi>
  <mo>=</mo>
  <mn>4</mn>
  <mrow>
    <mo>/</mo>
  </mrow>
  <mn>5</mn>
</math>
", Some "x = 4 / 5");
("test_convert_mo_with_glyph_operator", "
<root>
  <math>
    <mo>*</mo>
  </math>
</root>
", Some "\star");
("test_convert_mo_with_char_operator", "
<root>
  <math>
    <mo>b</mo>
  </math>
</root>
", Some "b");
("test_convert_mo_with_char_operator_and_mi", "
<root>
  <math xmlns=""http:#www.w3.org/1998/Math/MathML"">
    <mstyle displaystyle=""true"">
      <mi>a</mi>
      <mo>&#x21D2;</mo>
      <mi>b</mi>
    </mstyle>
  </math>
</root>
", Some "a \Rightarrow b");
("test_convert_mrow_wrapping_content", "
<root>
  <math>
    <mrow>
      <mn>2</mn>
      <mo>+</mo>
      <mn>2</mn>
    </mrow>
  </math>
</root>
", Some "2 + 2");
("test_convert_msqrt_single_child", "
<root>
  <math>
    <msqrt>
      <mn>2</mn>
    </msqrt>
  </math>
</root>
", Some "\sqrt{2}");
("test_convert_msqrt_with_wrapped_content", "
<root>
  <math>
    <msqrt>
      <mn>2</mn>
      <mo>+</mo>
      <mn>2</mn>
    </msqrt>
  </math>
</root>
", Some "\sqrt{2 + 2}");
("test_convert_msqrt_with_mrow", "
<root>
  <math>
    <msqrt>
      <mrow>
        <mn>2</mn>
        <mo>+</mo>
        <mn>2</mn>
      </mrow>
    </msqrt>
  </math>
</root>
", Some "\sqrt{2 + 2}");
("test_convert_empty_msqrt", "
<root>
  <math>
    <msqrt>
    </msqrt>
  </math>
</root>
", Some "\sqrt{}");
("test_convert_mfenced_without_attribute", "
<root>
  <math>
  <mfenced>
    <mn>3</mn>
  </mfenced>
  </math>
</root>
", Some "\left(3\right)");
("test_convert_mfenced_with_open", "
<root>
  <math>
  <mfenced open=""{"">
    <mn>3</mn>
  </mfenced>
  </math>
</root>
", Some "\left{3\right)");
("test_convert_mfenced_with_open_and_close", "
<root>
  <math>
  <mfenced open=""("" close="")"">
    <mn>3</mn>
  </mfenced>
  </math>
</root>
", Some "\left(3\right)");
("test_convert_mfenced_with_broken_close", "
<root>
  <math>
  <mfenced open=""{"" close>
    <mn>3</mn>
  </mfenced>
  </math>
</root>
", Some "\left{3\right)");
("test_convert_mfenced_with_wrapped_content", "
<root>
  <math>
  <mfenced>
    <mn>3</mn>
    <mn>2</mn>
    <mn>1</mn>
  </mfenced>
  </math>
</root>
", Some "\left(3,2,1\right)");
("test_convert_mfenced_with_empty_separator", "
<root>
  <math>
  <mfenced separators=''>
    <mn>3</mn>
    <mn>2</mn>
    <mn>1</mn>
    <mn>7</mn>
  </mfenced>
  </math>
</root>
", Some "\left(3,2,1,7\right)");
("test_convert_mfenced_with_separator", "
<root>
  <math>
  <mfenced separators=';;;'>
    <mn>3</mn>
    <mn>2</mn>
    <mn>1</mn>
  </mfenced>
  </math>
</root>
", Some "\left(3;2;1\right)");
("test_convert_mfenced_with_diff_separators", "
<root>
  <math>
  <mfenced separators=';.'>
    <mn>3</mn>
    <mn>2</mn>
    <mn>1</mn>
    <mn>7</mn>
  </mfenced>
  </math>
</root>
", Some "\left(3;2.1.7\right)");
("test_convert_mfenced_as_bmatrix", "
<root>
  <math xmlns = ""http:#www.w3.org/1998/Math/MathML"">
    <mrow>
      <mi>A</mi>
      <mo>=</mo>
      <mfenced open = ""["" close=""]"">
        <mtable>
          <mtr>
            <mtd><mi>x</mi></mtd>
            <mtd><mi>y</mi></mtd>
          </mtr>
          <mtr>
            <mtd><mi>z</mi></mtd>
            <mtd><mi>w</mi></mtd>
          </mtr>
        </mtable>
      </mfenced>
    </mrow>
  </math>
</root>
", Some "A = \begin{bmatrix} x & y \\ z & w \end{bmatrix}");
("test_convert_mfenced_as_pmatrix", "
<root>
  <math xmlns = ""http:#www.w3.org/1998/Math/MathML"">
    <mrow>
      <mi>A</mi>
      <mo>=</mo>
      <mfenced open = ""("" close="")"">
        <mtable>
          <mtr>
            <mtd><mi>x</mi></mtd>
            <mtd><mi>y</mi></mtd>
          </mtr>
          <mtr>
            <mtd><mi>z</mi></mtd>
            <mtd><mi>w</mi></mtd>
          </mtr>
        </mtable>
      </mfenced>
    </mrow>
  </math>
</root>
", Some "A = \begin{pmatrix} x & y \\ z & w \end{pmatrix}");
("test_convert_mfenced_as_vmatrix", "
<root>
  <math xmlns = ""http:#www.w3.org/1998/Math/MathML"">
    <mrow>
      <mi>A</mi>
      <mo>=</mo>
      <mfenced open = ""|"" close=""|"">
        <mtable>
          <mtr>
            <mtd><mi>x</mi></mtd>
            <mtd><mi>y</mi></mtd>
          </mtr>
          <mtr>
            <mtd><mi>z</mi></mtd>
            <mtd><mi>w</mi></mtd>
          </mtr>
        </mtable>
      </mfenced>
    </mrow>
  </math>
</root>
", Some "A = \begin{vmatrix} x & y \\ z & w \end{vmatrix}");
("test_convert_mfenced_as_big_bmatrix", "
<root>
  <math xmlns = ""http:#www.w3.org/1998/Math/MathML"">
    <mrow>
      <mi>A</mi>
      <mo>=</mo>
      <mfenced open = ""{"" close=""}"">
        <mtable>
          <mtr>
            <mtd><mi>x</mi></mtd>
            <mtd><mi>y</mi></mtd>
          </mtr>
          <mtr>
            <mtd><mi>z</mi></mtd>
            <mtd><mi>w</mi></mtd>
          </mtr>
        </mtable>
      </mfenced>
    </mrow>
  </math>
</root>
", Some "A = \begin{Bmatrix} x & y \\ z & w \end{Bmatrix}");
("test_convert_mfenced_as_big_vmatrix", "
<root>
  <math xmlns = ""http:#www.w3.org/1998/Math/MathML"">
    <mrow>
      <mi>A</mi>
      <mo>=</mo>
      <mfenced open = ""||"" close=""||"">
        <mtable>
          <mtr>
            <mtd><mi>x</mi></mtd>
            <mtd><mi>y</mi></mtd>
          </mtr>
          <mtr>
            <mtd><mi>z</mi></mtd>
            <mtd><mi>w</mi></mtd>
          </mtr>
        </mtable>
      </mfenced>
    </mrow>
  </math>
</root>
", Some "A = \begin{Vmatrix} x & y \\ z & w \end{Vmatrix}");
("test_convert_mfenced_as_matrix", "
<root>
  <math xmlns = ""http:#www.w3.org/1998/Math/MathML"">
    <mrow>
      <mi>A</mi>
      <mo>=</mo>
      <mfenced>
        <mtable>
          <mtr>
            <mtd><mi>x</mi></mtd>
            <mtd><mi>y</mi></mtd>
          </mtr>
          <mtr>
            <mtd><mi>z</mi></mtd>
            <mtd><mi>w</mi></mtd>
          </mtr>
        </mtable>
      </mfenced>
    </mrow>
  </math>
</root>
", Some "A = \begin{bmatrix} x & y \\ z & w \end{bmatrix}");
("test_convert_mfenced_as_partial_function", "
<root>
  <math xmlns=""http:#www.w3.org/1998/Math/MathML"" display=""block"">
    <mi>f</mi>
    <mfenced separators=""|"">
      <mrow>
        <mi>x</mi>
      </mrow>
    </mfenced>
    <mo>=</mo>
    <mfenced open=""{"" close="""" separators=""|"">
      <mrow>
        <mtable>
          <mtr>
            <mtd>
              <mrow>
                <maligngroup></maligngroup>
                <msup>
                  <mrow>
                    <mi>x</mi>
                  </mrow>
                  <mrow>
                    <mn>2</mn>
                  </mrow>
                </msup>
                <mo>,</mo>
                <mi>x</mi>
                <mo>&lt;</mo>
                <mn>0</mn>
              </mrow>
            </mtd>
          </mtr>
          <mtr>
            <mtd>
              <mrow>
                <maligngroup></maligngroup>
                <msup>
                  <mrow>
                    <mi>e</mi>
                  </mrow>
                  <mrow>
                    <mi>x</mi>
                  </mrow>
                </msup>
                <mo>,</mo>
                <mi>x</mi>
                <mo>≥</mo>
                <mn>0</mn>
              </mrow>
            </mtd>
          </mtr>
        </mtable>
      </mrow>
    </mfenced>
  </math>
</root>
", Some "f \left(x\right) = \left{\begin{matrix} x^{2} , x < 0 \\ e^{x} , x \geq 0 \end{matrix}\right");
("test_convert_mfenced_with_nested_mtables", "
<math xmlns=""http:#www.w3.org/1998/Math/MathML"" display=""block"">
  <mfenced separators=""|"">
    <mrow>
      <mtable>
        <mtr>
          <mtd>
            <mtable>
              <mtr>
                <mtd>
                  <msub>
                    <mrow>
                      <mi>a</mi>
                    </mrow>
                    <mrow>
                      <mn>11</mn>
                    </mrow>
                  </msub>
                </mtd>
                <mtd>
                  <msub>
                    <mrow>
                      <mi>a</mi>
                    </mrow>
                    <mrow>
                      <mn>12</mn>
                    </mrow>
                  </msub>
                </mtd>
              </mtr>
            </mtable>
          </mtd>
          <mtd>
            <mtable>
              <mtr>
                <mtd>
                  <mo>…</mo>
                </mtd>
                <mtd>
                  <mo>…</mo>
                </mtd>
              </mtr>
            </mtable>
          </mtd>
          <mtd>
            <msub>
              <mrow>
                <mi>a</mi>
              </mrow>
              <mrow>
                <mn>1</mn>
                <mi>n</mi>
              </mrow>
            </msub>
          </mtd>
        </mtr>
        <mtr>
          <mtd>
            <mtable>
              <mtr>
                <mtd>
                  <msub>
                    <mrow>
                      <mi>a</mi>
                    </mrow>
                    <mrow>
                      <mn>21</mn>
                    </mrow>
                  </msub>
                </mtd>
                <mtd>
                  <msub>
                    <mrow>
                      <mi>a</mi>
                    </mrow>
                    <mrow>
                      <mn>22</mn>
                    </mrow>
                  </msub>
                </mtd>
              </mtr>
            </mtable>
          </mtd>
          <mtd>
            <mtable>
              <mtr>
                <mtd>
                  <mo>⋱</mo>
                </mtd>
                <mtd>
                  <mi></mi>
                </mtd>
              </mtr>
            </mtable>
          </mtd>
          <mtd>
            <msub>
              <mrow>
                <mi>a</mi>
              </mrow>
              <mrow>
                <mn>2</mn>
                <mi>n</mi>
              </mrow>
            </msub>
          </mtd>
        </mtr>
        <mtr>
          <mtd>
            <mtable>
              <mtr>
                <mtd>
                  <mtable>
                    <mtr>
                      <mtd>
                        <mo>⋮</mo>
                        <mi></mi>
                        <mi></mi>
                        <mi></mi>
                        <mi></mi>
                      </mtd>
                      <mtd>
                        <mo>⋮</mo>
                      </mtd>
                    </mtr>
                  </mtable>
                </mtd>
              </mtr>
              <mtr>
                <mtd>
                  <mtable>
                    <mtr>
                      <mtd>
                        <msub>
                          <mrow>
                            <mi>a</mi>
                          </mrow>
                          <mrow>
                            <mi>m</mi>
                            <mn>1</mn>
                          </mrow>
                        </msub>
                      </mtd>
                      <mtd>
                        <msub>
                          <mrow>
                            <mi>a</mi>
                          </mrow>
                          <mrow>
                            <mi>m</mi>
                            <mn>2</mn>
                          </mrow>
                        </msub>
                      </mtd>
                    </mtr>
                  </mtable>
                </mtd>
              </mtr>
            </mtable>
          </mtd>
          <mtd>
            <mtable>
              <mtr>
                <mtd>
                  <mtable>
                    <mtr>
                      <mtd>
                        <mi></mi>
                      </mtd>
                      <mtd>
                        <mo>⋱</mo>
                      </mtd>
                    </mtr>
                  </mtable>
                </mtd>
              </mtr>
              <mtr>
                <mtd>
                  <mtable>
                    <mtr>
                      <mtd>
                        <mo>…</mo>
                      </mtd>
                      <mtd>
                        <mo>…</mo>
                      </mtd>
                    </mtr>
                  </mtable>
                </mtd>
              </mtr>
            </mtable>
          </mtd>
          <mtd>
            <mtable>
              <mtr>
                <mtd>
                  <mo>⋮</mo>
                </mtd>
              </mtr>
              <mtr>
                <mtd>
                  <msub>
                    <mrow>
                      <mi>a</mi>
                    </mrow>
                    <mrow>
                      <mi>m</mi>
                      <mi>n</mi>
                    </mrow>
                  </msub>
                </mtd>
              </mtr>
            </mtable>
          </mtd>
        </mtr>
      </mtable>
    </mrow>
  </mfenced>
  <mi></mi>
</math>
", Some "\begin{bmatrix} \begin{matrix}a_{11} & a_{12}\end{matrix} & \begin{matrix}\ldots & \ldots\end{matrix} & a_{1 n} \\ \begin{matrix}a_{21} & a_{22}\end{matrix} & \begin{matrix}\ddots & \end{matrix} & a_{2 n} \\ \begin{matrix}\begin{matrix}\vdots & \vdots\end{matrix} \\ \begin{matrix}a_{m 1} & a_{m 2}\end{matrix}\end{matrix} & \begin{matrix}\begin{matrix} & \ddots\end{matrix} \\ \begin{matrix}\ldots & \ldots\end{matrix}\end{matrix} & \begin{matrix}\vdots \\ a_{m n}\end{matrix} \end{bmatrix}");
("test_convert_mfrac_simple", "
<root>
  <math>
    <mfrac>
      <mi>x</mi>
      <mn>3</mn>
    </mfrac>
  </math>
</root>
", Some "\frac{x}{3}");
("test_convert_mfrac_with_mrow", "
<root>
  <math>
    <mfrac>
      <mrow>
        <mi>a</mi>
        <mo>+</mo>
        <mi>2</mi>
      </mrow>
      <mrow>
        <mi>b</mi>
        <mo>-</mo>
        <mi>3</mi>
      </mrow>
    </mfrac>
  </math>
</root>
", Some "\frac{a + 2}{b - 3}");
("test_convert_short_m_frac", "
<root>
  <math>
    <mfrac bevelled=""true"">
      <mn>1</mn>
      <mrow>
        <msup>
          <mi>x</mi>
          <mn>3</mn>
        </msup>
        <mo>+</mo>
        <mn>3</mn>
      </mrow>
    </mfrac>
  </math>
</root>
", Some "1/\left(x^{3} + 3\right)");
("test_convert_mfrac_with_three_children", "
<root>
  <math>
    <mfrac>
      <mi>x</mi>
      <mn>3</mn>
      <mi>2</mi>
    </mfrac>
  </math>
</root>
", None);
("test_convert_mroot", "
<root>
  <math>
    <mroot>
      <mrow>
        <mi>x</mi>
        <mo>+</mo>
        <mi>2</mi>
      </mrow>
      <mn>3</mn>
    </mroot> 
  </math>
</root>
", Some "\sqrt[3]{x + 2}");
("test_convert_mroot_with_three_children", "
<root>
  <math>
    <mroot>
      <mrow>
        <mi>x</mi>
        <mo>+</mo>
        <mi>2</mi>
      </mrow>
      <mn>3</mn>
      <mn>2</mn>
    </mroot> 
  </math>
</root>
", None);
("test_convert_mpadded", "
<root>
  <math>
    <mpadded>
      <mn>2</mn>
      <mo>+</mo>
      <mn>2</mn>
    </mpadded>
  </math>
</root>
", Some "2 + 2");
("test_convert_maction_toggle", "
<root>
  <math>
    <maction>
      <mrow>
        <mi>a</mi>
        <mo>+</mo>
        <mi>2</mi>
      </mrow>
      <mrow>
        <mi>b</mi>
        <mo>-</mo>
        <mi>3</mi>
      </mrow>
    </maction>
  </math>
</root>
", Some "a + 2 \Longrightarrow b - 3");
("test_convert_maction_with_mrow", "
<root>
  <math>
    <maction>
      <mrow>
        <mi>a</mi>
        <mo>+</mo>
        <mi>2</mi>
      </mrow>
      <mrow>
        <mi>b</mi>
        <mo>-</mo>
        <mi>3</mi>
      </mrow>
      <mrow>
        <mi>a</mi>
        <mo>+</mo>
        <mi>b</mi>
      </mrow>
    </maction>
  </math>
</root>
", Some "a + 2 \Longrightarrow b - 3 \Longrightarrow a + b");
("test_convert_maction_type_toggle", "
<root>
  <math>
    <maction actiontype=""toggle"">
      <mrow>
        <mi>a</mi>
        <mo>+</mo>
        <mi>2</mi>
      </mrow>
      <mrow>
        <mi>b</mi>
        <mo>-</mo>
        <mi>3</mi>
      </mrow>
      <mrow>
        <mi>a</mi>
        <mo>+</mo>
        <mi>b</mi>
      </mrow>
    </maction>
  </math>
</root>
", Some "a + 2 \Longrightarrow b - 3 \Longrightarrow a + b");
("test_convert_maction_type_statusline", "
<root>
  <math>
    <maction actiontype=""statusline"">
      <mrow>
        <mi>a</mi>
        <mo>+</mo>
        <mi>2</mi>
      </mrow>
      <mrow>
        <mi>b</mi>
        <mo>-</mo>
        <mi>3</mi>
      </mrow>
      <mrow>
        <mi>a</mi>
        <mo>+</mo>
        <mi>b</mi>
      </mrow>
    </maction>
  </math>
</root>
", Some "a + 2");
("test_convert_maction_type_tooltip", "
<root>
  <math>
    <maction actiontype=""tooltip"">
      <mrow>
        <mi>a</mi>
        <mo>+</mo>
        <mi>2</mi>
      </mrow>
      <mrow>
        <mi>b</mi>
        <mo>-</mo>
        <mi>3</mi>
      </mrow>
      <mrow>
        <mi>a</mi>
        <mo>+</mo>
        <mi>b</mi>
      </mrow>
    </maction>
  </math>
</root>
", Some "a + 2");
("test_convert_menclose_default", "
<root>
  <math>
    <menclose>
      <mi>a</mi>
      <mo>+</mo>
      <mi>2</mi>
    </menclose>
  </math>
</root>
", Some "\overline{\left.\right)a + 2}");
("test_convert_menclose_longdiv", "
<root>
  <math>
    <menclose notation=""longdiv"">
      <mi>a</mi>
      <mo>+</mo>
      <mi>2</mi>
    </menclose>
  </math>
</root>
", Some "\overline{\left.\right)a + 2}");
("test_convert_menclose_actuarial", "
<root>
  <math>
    <menclose notation=""actuarial"">
      <mi>a</mi>
      <mo>+</mo>
      <mi>2</mi>
    </menclose>
  </math>
</root>
", Some "\overline{\left.a + 2\right|}");
("test_convert_menclose_radical", "
<root>
  <math>
    <menclose notation=""radical"">
      <mi>a</mi>
      <mo>+</mo>
      <mi>2</mi>
    </menclose>
  </math>
</root>
", Some "\sqrt{a + 2}");
("test_convert_menclose_box", "
<root>
  <math>
    <menclose notation=""box"">
      <mrow>
        <mi>E</mi>
        <mo>=</mo>
        <mi>m</mi>
        <msup>
          <mi>c</mi>
          <mn>2</mn>
        </msup>
      </mrow>
    </menclose>
  </math>
</root>
", Some "\boxed{E = m c^{2}}");
("test_convert_menclose_rounded_box", "
<root>
  <math>
    <menclose notation=""roundedbox"">
      <mrow>
        <mi>E</mi>
        <mo>=</mo>
        <mi>m</mi>
        <msup>
          <mi>c</mi>
          <mn>2</mn>
        </msup>
      </mrow>
    </menclose>
  </math>
</root>
", Some "\boxed{E = m c^{2}}");
("test_convert_menclose_circle", "
<root>
  <math>
    <menclose notation=""circle"">
      <mrow>
        <mi>E</mi>
        <mo>=</mo>
        <mi>m</mi>
        <msup>
          <mi>c</mi>
          <mn>2</mn>
        </msup>
      </mrow>
    </menclose>
  </math>
</root>
", Some "\boxed{E = m c^{2}}");
("test_convert_menclose_left", "
<root>
  <math>
    <menclose notation=""left"">
      <mrow>
        <mi>E</mi>
        <mo>=</mo>
        <mi>m</mi>
        <msup>
          <mi>c</mi>
          <mn>2</mn>
        </msup>
      </mrow>
    </menclose>
  </math>
</root>
", Some "\left|E = m c^{2}");
("test_convert_menclose_right", "
<root>
  <math>
    <menclose notation=""right"">
      <mrow>
        <mi>E</mi>
        <mo>=</mo>
        <mi>m</mi>
        <msup>
          <mi>c</mi>
          <mn>2</mn>
        </msup>
      </mrow>
    </menclose>
  </math>
</root>
", Some "E = m c^{2}\right|");
("test_convert_menclose_top", "
<root>
  <math>
    <menclose notation=""top"">
      <mrow>
        <mi>E</mi>
        <mo>=</mo>
        <mi>m</mi>
        <msup>
          <mi>c</mi>
          <mn>2</mn>
        </msup>
      </mrow>
    </menclose>
  </math>
</root>
", Some "\overline{E = m c^{2}}");
("test_convert_menclose_bottom", "
<root>
  <math>
    <menclose notation=""bottom"">
      <mi>a</mi>
      <mo>+</mo>
      <mi>2</mi>
    </menclose>
  </math>
</root>
", Some "\underline{a + 2}");
("test_convert_menclose_updiagnonalstrike", "
<root>
  <math>
    <menclose notation=""updiagonalstrike"">
      <mi>a</mi>
      <mo>+</mo>
      <mi>2</mi>
    </menclose>
  </math>
</root>
", Some "\cancel{a + 2}");
("test_convert_menclose_downdiagonalstrike", "
<root>
  <math>
    <menclose notation=""downdiagonalstrike"">
      <mi>a</mi>
      <mo>+</mo>
      <mi>2</mi>
    </menclose>
  </math>
</root>
", Some "\bcancel{a + 2}");
("test_convert_menclose_horizontalstrike", "
<root>
  <math>
    <menclose notation=""horizontalstrike"">
      <mi>a</mi>
      <mo>+</mo>
      <mi>2</mi>
    </menclose>
  </math>
</root>
", Some "\hcancel{a + 2}");
("test_convert_menclose_verticalstrike", "
<root>
  <math>
    <menclose notation=""verticalstrike"">
      <mi>a</mi>
      <mo>+</mo>
      <mi>2</mi>
    </menclose>
  </math>
</root>
", Some "\hcancel{a + 2}");
("test_convert_menclose_updiagnonalarrow", "
<root>
  <math>
    <menclose notation=""updiagonalarrow"">
      <mi>a</mi>
      <mo>+</mo>
      <mi>2</mi>
    </menclose>
  </math>
</root>
", Some "\cancelto{}{a + 2}");
("test_convert_menclose_madruwb", "
<root>
  <math>
    <menclose notation=""madruwb"">
      <mi>a</mi>
      <mo>+</mo>
      <mi>2</mi>
    </menclose>
  </math>
</root>
", Some "\underline{a + 2\right|}");
("test_convert_menclose_phasorangle", "
<root>
  <math>
    <menclose notation=""phasorangle"">
      <mi>a</mi>
      <mo>+</mo>
      <mi>2</mi>
    </menclose>
  </math>
</root>
", Some "{\angle \underline{a + 2}}");
("test_convert_merror", "
<root>
  <math>
    <merror>
      <mi>2</mi>
      <mo>+</mo>
      <mi>2</mi>
    </merror>
  </math>
</root>
", Some "\color{red}{2 + 2}");
("test_convert_mglyph", "
<root>
  <math>
    <mi><mglyph src=""my-glyph.png"" alt=""my glyph""/></mi>
  </math>
</root>
", Some "");
("test_convert_mphantom", "
<root>
  <math>
    <mrow>
      <mi> x </mi>
      <mo> + </mo>
      <mphantom>
        <mi> y </mi>
        <mo> + </mo>
      </mphantom>
      <mi> z </mi>
    </mrow>
  </math>
</root>
", Some "x + z");
("test_convert_msup_single", "
<root>
  <math>
    <msup>
      <mi>x</mi>
      <mn>2</mn>
    </msup>
  </math>
</root>
", Some "x^{2}");
("test_convert_msup_with_mrow_on_top", "
<root>
  <math>
    <msup>
      <mi>x</mi>
      <mrow>
        <mn>a</mn>
        <mo>+</mo>
        <mn>b</mn>
      </mrow>
    </msup>
  </math>
</root>
", Some "x^{a + b}");
("test_convert_msup_with_mrow_on_bottom", "
<root>
  <math>
    <msup>
      <mrow>
        <mn>x</mn>
        <mo>+</mo>
        <mn>y</mn>
      </mrow>
      <mi>2</mi>
    </msup>
  </math>
</root>
", Some "\left(x + y\right)^{2}");
("test_convert_msup_with_mrow_on_top_bottom", "
<root>
  <math>
    <msup>
      <mrow>
        <mn>x</mn>
        <mo>+</mo>
        <mn>y</mn>
      </mrow>
      <mrow>
        <mn>2</mn>
        <mo>+</mo>
        <mn>2</mn>
      </mrow>
    </msup>
  </math>
</root>
", Some "\left(x + y\right)^{2 + 2}");
("test_convert_msup_with_three_children", "
<root>
  <math>
    <msup>
      <mi>x</mi>
      <mn>2</mn>
      <mn>3</mn>
    </msup>
  </math>
</root>
", None);
("test_convert_msub_single", "
<root>
  <math>
    <msub>
      <mi>x</mi>
      <mn>2</mn>
    </msub>
  </math>
</root>
", Some "x_{2}");
("test_convert_msub_with_mrow_on_bottom", "
<root>
  <math>
    <msub>
      <mi>x</mi>
      <mrow>
        <mn>a</mn>
        <mo>+</mo>
        <mn>b</mn>
      </mrow>
    </msub>
  </math>
</root>
", Some "x_{a + b}");
("test_convert_msub_with_mrow_on_top", "
<root>
  <math>
    <msub>
      <mrow>
        <mn>x</mn>
        <mo>+</mo>
        <mn>y</mn>
      </mrow>
      <mi>2</mi>
    </msub>
  </math>
</root>
", Some "\left(x + y\right)_{2}");
("test_convert_msub_with_mrow_on_top_bottom", "
<root>
  <math>
    <msub>
      <mrow>
        <mn>x</mn>
        <mo>+</mo>
        <mn>y</mn>
      </mrow>
      <mrow>
        <mn>2</mn>
        <mo>+</mo>
        <mn>2</mn>
      </mrow>
    </msub>
  </math>
</root>
", Some "\left(x + y\right)_{2 + 2}");
("test_convert_msub_with_three_children", "
<root>
  <math>
    <msub>
      <mi>x</mi>
      <mn>2</mn>
      <mn>3</mn>
    </msub>
  </math>
</root>
", None);
("test_convert_msubsup", "
<root>
  <math>
    <msubsup>
      <mo> &#x222B; </mo>
      <mn> 0 </mn>
      <mn> 1 </mn>
    </msubsup>
  </math>
</root>
", Some "\int_{0}^{1}");
("test_convert_msubsup_with_mrow", "
<root>
  <math>
    <msubsup>
      <mrow>
        <mn>x</mn>
        <mo>+</mo>
        <mn>y</mn>
      </mrow>
      <mn> 0 </mn>
      <mn> 1 </mn>
    </msubsup>
  </math>
</root>
", Some "\left(x + y\right)_{0}^{1}");
("test_convert_msubsup_with_four_children", "
<root>
  <math>
    <msubsup>
      <mo> &#x222B; </mo>
      <mn> 0 </mn>
      <mn> 1 </mn>
      <mn> 5 </mn>
    </msubsup>
  </math>
</root>
", None);
("test_convert_mtext_normal", "
<root>
  <math xmlns=""http:#www.w3.org/1998/Math/MathML"">
    <mtext mathvariant=""normal""> Theorem of Pythagoras </mtext>
  </math>
</root>
", Some "\text{Theorem of Pythagoras}");
("test_convert_mtext_bold", "
<root>
  <math xmlns=""http:#www.w3.org/1998/Math/MathML"">
    <mtext mathvariant=""bold""> Theorem of Pythagoras </mtext>
  </math>
</root>
", Some "\textbf{Theorem of Pythagoras}");
("test_convert_mtext_italic", "
<root>
  <math xmlns=""http:#www.w3.org/1998/Math/MathML"">
    <mtext mathvariant=""italic""> Theorem of Pythagoras </mtext>
  </math>
</root>
", Some "\textit{Theorem of Pythagoras}");
("test_convert_mtext_bold_italic", "
<root>
  <math xmlns=""http:#www.w3.org/1998/Math/MathML"">
    <mtext mathvariant=""bold-italic""> Theorem of Pythagoras </mtext>
  </math>
</root>
", Some "\textbf{\textit{Theorem of Pythagoras}}");
("test_convert_mtext_double_struck", "
<root>
  <math xmlns=""http:#www.w3.org/1998/Math/MathML"">
    <mtext mathvariant=""double-struck"">R</mtext>
  </math>
</root>
", Some "\mathbb{R}");
("test_convert_mtext_fraktur", "
<root>
  <math xmlns=""http:#www.w3.org/1998/Math/MathML"">
    <mtext mathvariant=""fraktur"">Creepy</mtext>
  </math>
</root>
", Some "\mathfrak{Creepy}");
("test_convert_mtext_bold_fraktur", "
<root>
  <math xmlns=""http:#www.w3.org/1998/Math/MathML"">
    <mtext mathvariant=""bold-fraktur"">Creepy</mtext>
  </math>
</root>
", Some "\mathfrak{Creepy}");
("test_convert_mtext_monospace", "
<root>
  <math xmlns=""http:#www.w3.org/1998/Math/MathML"">
    <mtext mathvariant=""monospace"">simple text</mtext>
  </math>
</root>
", Some "\mathtt{simple text}");
("test_convert_mtext_script", "
<root>
  <math xmlns=""http:#www.w3.org/1998/Math/MathML"">
    <mtext mathvariant=""script"">Creepy</mtext>
  </math>
</root>
", Some "\text{Creepy}");
("test_convert_mtext_bold_script", "
<root>
  <math xmlns=""http:#www.w3.org/1998/Math/MathML"">
    <mtext mathvariant=""bold-script"">Creepy</mtext>
  </math>
</root>
", Some "\text{Creepy}");
("test_convert_mover_overbrace", "
<root>
  <math>
    <mover accent=""true"">
      <mrow>
        <mi> x </mi>
        <mo> + </mo>
        <mi> y </mi>
        <mo> + </mo>
        <mi> z </mi>
      </mrow>
      <mo>^</mo>
    </mover>
  </math>
</root>
", Some "\hat{x + y + z}");
("test_convert_mover_encoded_mo", "
<root>
  <math>
    <mover accent=""true"">
      <mrow>
        <mi> x </mi>
        <mo> + </mo>
        <mi> y </mi>
        <mo> + </mo>
        <mi> z </mi>
      </mrow>
      <mo>&#x2C6;</mo>
    </mover>
  </math>
</root>
", Some "\hat{x + y + z}");
("test_convert_mover_double_mrow", "
<root>
  <math>
    <mover accent=""true"">
      <mrow>
        <mi> x </mi>
        <mo> + </mo>
        <mi> y </mi>
        <mo> + </mo>
        <mi> z </mi>
      </mrow>
      <mrow>
        <mi> a </mi>
        <mo> + </mo>
        <mi> b </mi>
      </mrow>
    </mover>
  </math>
</root>
", Some "\overset{a + b}{x + y + z}");
("test_convert_mover_with_three_children", "
<root>
  <math>
    <mover accent=""true"">
      <mrow>
        <mi> x </mi>
        <mo> + </mo>
        <mi> y </mi>
        <mo> + </mo>
        <mi> z </mi>
      </mrow>
      <mo> + </mo>
      <mi> z </mi>
    </mover>
  </math>
</root>
", None);
("test_convert_munder_underbrace", "
<root>
  <math>
    <munder accent=""true"">
      <mrow>
        <mi> x </mi>
        <mo> + </mo>
        <mi> y </mi>
        <mo> + </mo>
        <mi> z </mi>
      </mrow>
      <mo>⏟</mo>
    </munder>
  </math>
</root>
", Some "\underbrace{x + y + z}");
("test_convert_munder_double_mrow", "
<root>
  <math>
    <munder accent=""true"">
      <mrow>
        <mi> x </mi>
        <mo> + </mo>
        <mi> y </mi>
        <mo> + </mo>
        <mi> z </mi>
      </mrow>
      <mrow>
        <mi> a </mi>
        <mo> + </mo>
        <mi> b </mi>
      </mrow>
    </munder>
  </math>
</root>
", Some "\underset{a + b}{x + y + z}");
("test_convert_munder_encoded_mrow", "
<root>
  <math>
    <munder accent=""true"">
      <mrow>
        <mi> x </mi>
        <mo> + </mo>
        <mi> y </mi>
        <mo> + </mo>
        <mi> z </mi>
      </mrow>
      <mo>&#x23DF;</mo>
    </munder>
  </math>
</root>
", Some "\underbrace{x + y + z}");
("test_convert_munderover", "
<root>
  <math>
    <munderover>
      <mo> &#x222B;</mo>
      <mn> 0 </mn>
      <mn> 1 </mn>
    </munderover>
  </math>
</root>
", Some "\int_{0}^{1}");
("test_convert_munderover_encoded", "
<root>
  <math>
    <munderover>
      <mo> &#x222B;</mo>
      <mn> 0 </mn>
      <mi> &#x221E; </mi>
    </munderover>
  </math>
</root>
", Some "\int_{0}^{\infty}");
("test_convert_munderover_with_three_children", "
<root>
  <math>
    <munderover>
      <mo> &#x222B;</mo>
      <mn> 0 </mn>
      <mi> &#x221E; </mi>
      <mi> 1 </mi>
    </munderover>
  </math>
</root>
", None);
("test_convert_mmultiscript", "
<math xmlns=""http:#www.w3.org/1998/Math/MathML"" display=""block"">
  <mmultiscripts>
    <mrow>
      <mi>N</mi>
      <mi>a</mi>
    </mrow>
    <mrow>
      <mn>11</mn>
    </mrow>
    <mrow>
      <mi>+</mi>
    </mrow>
  </mmultiscripts>
</math>
", Some "\left(N a\right)_{11}^{+}");
("test_convert_mmultiscript_no_super", "
<math xmlns=""http:#www.w3.org/1998/Math/MathML"" display=""block"">
  <mmultiscripts>
    <mrow>
      <mi>N</mi>
      <mi>a</mi>
    </mrow>
    <mrow>
      <mn>11</mn>
    </mrow>
    <none/>
  </mmultiscripts>
</math>
", Some "\left(N a\right)_{11}^{}");
("test_convert_mmultiscript_no_sub", "
<math xmlns=""http:#www.w3.org/1998/Math/MathML"" display=""block"">
  <mmultiscripts>
    <mrow>
      <mi>N</mi>
      <mi>a</mi>
    </mrow>
    <none/>
    <mrow>
      <mn>+</mn>
    </mrow>
  </mmultiscripts>
</math>
", Some "\left(N a\right)_{}^{+}");
("test_convert_mmultiscript_preset", "
<math xmlns=""http:#www.w3.org/1998/Math/MathML"" display=""block"">
  <mmultiscripts>

    <mi>X</mi>      <!-- base expression -->  

    <mi>d</mi>      <!-- postsubscript -->
    <mi>c</mi>      <!-- postsuperscript -->

    <mprescripts />
    <mi>b</mi>      <!-- presubscript -->
    <mi>a</mi>      <!-- presuperscript -->

  </mmultiscripts>
</math>
", Some "\_{b}^{a}X_{d}^{c}");
("test_convert_mmultiscript_preset_with_none", "
<math xmlns=""http:#www.w3.org/1998/Math/MathML"" display=""block"">
  <mmultiscripts>

    <mi>X</mi>      <!-- base expression -->

    <none />        <!-- postsubscript -->
    <mi>c</mi>      <!-- postsuperscript -->

    <mprescripts />
    <mi>b</mi>      <!-- presubscript -->
    <none />        <!-- presuperscript -->

  </mmultiscripts>
</math>
", Some "\_{b}^{}X_{}^{c}");
("test_convert_mmultiscript_preset_only", "
<math xmlns=""http:#www.w3.org/1998/Math/MathML"" display=""block"">
  <mmultiscripts>
    <mi>X</mi>      <!-- base expression -->
    <mprescripts />
    <mi>b</mi>      <!-- presubscript -->
    <none />        <!-- presuperscript -->

  </mmultiscripts>
</math>
", Some "\_{b}^{}X");
("test_convert_mmultiscript_with_two_children", "
<math xmlns=""http:#www.w3.org/1998/Math/MathML"" display=""block"">
  <mmultiscripts>
    <mrow>
      <mi>N</mi>
      <mi>a</mi>
    </mrow>
    <mrow>
      <mn>11</mn>
    </mrow>
  </mmultiscripts>
</math>
", None);
("test_convert_special_epsilon", "
<math xmlns=""http://www.w3.org/1998/Math/MathML"">
  <mi>d</mi>
  <mo>=</mo>
  <msup>
    <mrow>
      <mfenced separators=""|"">
        <mrow>
          <mfrac>
            <mrow>
              <msup>
                <mrow>
                  <mi>q</mi>
                </mrow>
                <mrow>
                  <mn>2</mn>
                </mrow>
              </msup>
              <mi>L</mi>
            </mrow>
            <mrow>
              <mn>2</mn>
              <mi>π</mi>
              <msub>
                <mrow>
                  <mi>ϵ</mi>
                </mrow>
                <mrow>
                  <mn>0</mn>
                </mrow>
              </msub>
              <mi>m</mi>
              <mi>g</mi>
            </mrow>
          </mfrac>
        </mrow>
      </mfenced>
    </mrow>
    <mrow>
      <mn>1</mn>
      <mo>/</mo>
      <mn>3</mn>
    </mrow>
  </msup>
</math>
", Some "d = \left(\frac{q^{2} L}{2 \pi \epsilon_{0} m g}\right)^{1 / 3}");
("test_convert_mu", "
<math xmlns=""http://www.w3.org/1998/Math/MathML"">
  <mn>2</mn>
  <mi>µ</mi>
  <mi>s</mi>
</math>
", Some "2 \mu s");
("test_convert_cdot_in_text", "
<math xmlns=""http://www.w3.org/1998/Math/MathML"">
  <mtext>kg⋅m²</mtext>
</math>
", Some "\text{kg}\cdot\text{m}^{2}");
("test_convert_alternative_imath", "
<math xmlns=""http://www.w3.org/1998/Math/MathML"">
  <mi>E</mi>
  <mfenced separators=""|"">
    <mrow>
      <msub>
        <mrow>
          <mi>W</mi>
        </mrow>
        <mrow>
          <mi>ı</mi>
        </mrow>
      </msub>
    </mrow>
  </mfenced>
  <mo>=</mo>
  <mi>μ</mi>
</math>
", Some "E \left(W_{\imath}\right) = \mu");
("test_convert_alternative_square", "
<math xmlns=""http://www.w3.org/1998/Math/MathML"">
  <mn>2</mn>
  <mi>∎</mi>
  <mi>s</mi>
</math>
", Some "2 \blacksquare s");
("test_convert_ms_word_input", "
<mml:math xmlns:mml=""http://www.w3.org/1998/Math/MathML"" xmlns:m=""http://schemas.openxmlformats.org/officeDocument/2006/math"">
  <mml:msub>
    <mml:mrow>
      <mml:mi>V</mml:mi>
    </mml:mrow>
    <mml:mrow>
      <mml:mi>i</mml:mi>
    </mml:mrow>
  </mml:msub>
  <mml:mfrac>
    <mml:mrow>
      <mml:mi mathvariant=""normal"">Δ</mml:mi>
      <mml:msubsup>
        <mml:mrow>
          <mml:mi>C</mml:mi>
        </mml:mrow>
        <mml:mrow>
          <mml:mi>A</mml:mi>
          <mml:mo>,</mml:mo>
          <mml:mi>i</mml:mi>
        </mml:mrow>
        <mml:mrow>
          <mml:mi>t</mml:mi>
        </mml:mrow>
      </mml:msubsup>
    </mml:mrow>
    <mml:mrow>
      <mml:mi mathvariant=""normal"">Δ</mml:mi>
      <mml:mi>t</mml:mi>
    </mml:mrow>
  </mml:mfrac>
  <mml:mo>=</mml:mo>
  <mml:mrow>
    <mml:munderover>
      <mml:mo stretchy=""false"">∑</mml:mo>
      <mml:mrow>
        <mml:mi>j</mml:mi>
        <mml:mo>=</mml:mo>
        <mml:mi>k</mml:mi>
      </mml:mrow>
      <mml:mrow>
        <mml:mi>N</mml:mi>
      </mml:mrow>
    </mml:munderover>
    <mml:mrow>
      <mml:msubsup>
        <mml:mrow>
          <mml:mi>G</mml:mi>
        </mml:mrow>
        <mml:mrow>
          <mml:mi>i</mml:mi>
          <mml:mo>,</mml:mo>
          <mml:mi>j</mml:mi>
        </mml:mrow>
        <mml:mrow>
          <mml:mi>D</mml:mi>
        </mml:mrow>
      </mml:msubsup>
      <mml:mfenced separators=""|"">
        <mml:mrow>
          <mml:msub>
            <mml:mrow>
              <mml:mi>C</mml:mi>
            </mml:mrow>
            <mml:mrow>
              <mml:mi>A</mml:mi>
              <mml:mo>,</mml:mo>
              <mml:mi>j</mml:mi>
            </mml:mrow>
          </mml:msub>
          <mml:mo>-</mml:mo>
          <mml:msub>
            <mml:mrow>
              <mml:mi>C</mml:mi>
            </mml:mrow>
            <mml:mrow>
              <mml:mi>A</mml:mi>
              <mml:mo>,</mml:mo>
              <mml:mi>i</mml:mi>
            </mml:mrow>
          </mml:msub>
        </mml:mrow>
      </mml:mfenced>
    </mml:mrow>
  </mml:mrow>
</mml:math>
", Some "V_{i} \frac{\Delta C_{A , i}^{t}}{\Delta t} = \sum_{j = k}^{N} G_{i , j}^{D} \left(C_{A , j} - C_{A , i}\right)");
("test_convert_not_add_unnecessary_delimiters", "
<math xmlns=""http://www.w3.org/1998/Math/MathML"" display=""block"">
  <semantics>
    <mrow>
      <msub>
        <mtext>Required Value</mtext>
        <mtext>other</mtext>
      </msub>
      <mo>≥</mo>
      <mfrac>
        <mrow>
          <mn>21</mn>
          <mi>f</mi>
          <msup>
            <mi>t</mi>
            <mn>3</mn>
          </msup>
        </mrow>
        <mrow>
          <mi>A</mi>
          <mi>C</mi>
          <mi>H</mi>
        </mrow>
      </mfrac>
      <mo>⋅</mo>
      <mo fence=""true"">(</mo>
      <mfrac>
        <msub>
          <mi>I</mi>
          <mi>o</mi>
        </msub>
        <mrow>
          <mn>1000</mn>
          <msub>
            <mi>B</mi>
            <mrow>
              <mtext>Btu</mtext>
              <mi mathvariant=""normal"">/</mi>
              <mtext>h</mtext>
            </mrow>
          </msub>
        </mrow>
      </mfrac>
      <mo fence=""true"">)</mo>
    </mrow>
  </semantics>
</math>
", Some "\text{Required Value}_{\text{other}} \geq \frac{21 f t^{3}}{A C H} \cdot \left(\right. \frac{I_{o}}{1000 B_{\text{Btu} / \text{h}}} \left.\right)");
("test_convert_mmultiscripts_empty_preset", "
<math xmlns=""http:#www.w3.org/1998/Math/MathML"" display=""block"">
  <mmultiscripts>

    <mi>X</mi>      <!-- base expression -->

    <none />        <!-- postsubscript -->
    <mi>c</mi>      <!-- postsuperscript -->

    <mprescripts />
    <mi>b</mi>      <!-- presubscript -->
    <none />        <!-- presuperscript -->

  </mmultiscripts>
</math>
", Some "\_{b}^{}X_{}^{c}");
("test_should_fail_if_invalid_mathml_is_given", "
<math xmlns=""http://www.w3.org/1998/Math/MathML"">
  <mn>20</mn>
  <mo>°</mo>
  <mi>C</mi>
</math>. Qual é o valor de
", None);
("pair_0", "<math xmlns=""http://www.w3.org/1998/Math/MathML""><mi>Ω</mi></math>", Some "\Omega");
("pair_1", "<math xmlns=""http://www.w3.org/1998/Math/MathML""><mo>×</mo></math>", Some "\times");
("pair_2", "<math xmlns=""http://www.w3.org/1998/Math/MathML""><mn>½</mn></math>", Some "\dfrac{1}{2}");
("pair_3", "<math xmlns=""http://www.w3.org/1998/Math/MathML""><mi>µ</mi></math>", Some "\mu");
("pair_4", "<math xmlns=""http://www.w3.org/1998/Math/MathML""><mi>θ</mi></math>", Some "\theta");
("pair_5", "<math xmlns=""http://www.w3.org/1998/Math/MathML""><mo>✓</mo></math>", Some "\checkmark");
("pair_6", "<math xmlns=""http://www.w3.org/1998/Math/MathML""><mo>〈</mo></math>", Some "\langle");
("pair_7", "<math xmlns=""http://www.w3.org/1998/Math/MathML""><mo>⟨</mo></math>", Some "\langle");
("pair_8", "<math xmlns=""http://www.w3.org/1998/Math/MathML""><mo>⟩</mo></math>", Some "\rangle");
("pair_9", "<math xmlns=""http://www.w3.org/1998/Math/MathML""><mn>¼</mn></math>", Some "\dfrac{1}{4}");
("pair_10", "<math xmlns=""http://www.w3.org/1998/Math/MathML""><mo>…</mo></math>", Some "\ldots");
("pair_11", "<math xmlns=""http://www.w3.org/1998/Math/MathML""><mi>ℏ</mi></math>", Some "\hbar");
("pair_12", "<math xmlns=""http://www.w3.org/1998/Math/MathML""><mi>ℜ</mi></math>", Some "\mathfrak{R}");
("pair_13", "<math xmlns=""http://www.w3.org/1998/Math/MathML""><mi>Ѳ</mi></math>", Some "\theta");
("pair_14", "<math xmlns=""http://www.w3.org/1998/Math/MathML""><mi>Ø</mi></math>", Some "\emptyset");
("pair_15", "<math xmlns=""http://www.w3.org/1998/Math/MathML""><mi>ϱ</mi></math>", Some "\varrho");
("pair_16", "<math xmlns=""http://www.w3.org/1998/Math/MathML""><mi>ϕ</mi></math>", Some "\phi");
("pair_17", "<math xmlns=""http://www.w3.org/1998/Math/MathML""><mi>T</mi></math>", Some "T");
("pair_18", "<math xmlns=""http://www.w3.org/1998/Math/MathML""><mo>⋅</mo></math>", Some "\cdot");
("pair_19", "<math xmlns=""http://www.w3.org/1998/Math/MathML""><mi>P</mi></math>", Some "P");
("pair_20", "<math xmlns=""http://www.w3.org/1998/Math/MathML""><mo>∞</mo></math>", Some "\infty");
("pair_21", "<math xmlns=""http://www.w3.org/1998/Math/MathML""><mo>∇</mo></math>", Some "\nabla");
("pair_22", "<math xmlns=""http://www.w3.org/1998/Math/MathML""><mi>η</mi></math>", Some "\eta");
("pair_23", "<math xmlns=""http://www.w3.org/1998/Math/MathML""><mi>Å</mi></math>", Some "\mathring{A}");
("pair_24", "<math xmlns=""http://www.w3.org/1998/Math/MathML""><mi>θ</mi></math>", Some "\theta");
("pair_25", "<math xmlns=""http://www.w3.org/1998/Math/MathML""><mi>ɣ</mi></math>", Some "\gamma");
("pair_26", "<math xmlns=""http://www.w3.org/1998/Math/MathML""><mi>ћ</mi></math>", Some "\hbar");
("pair_27", "<math xmlns=""http://www.w3.org/1998/Math/MathML""><mi>Å</mi></math>", Some "\mathring{A}");
("pair_28", "<math xmlns=""http://www.w3.org/1998/Math/MathML""><mo>⌊</mo></math>", Some "\lfloor");
("pair_29", "<math xmlns=""http://www.w3.org/1998/Math/MathML""><mi>π</mi></math>", Some "\pi");
("pair_30", "<math xmlns=""http://www.w3.org/1998/Math/MathML""><mn>³</mn></math>", Some "^{3}");
("pair_31", "<math xmlns=""http://www.w3.org/1998/Math/MathML""><mi>Ɛ</mi></math>", Some "\varepsilon");
("pair_32", "<math xmlns=""http://www.w3.org/1998/Math/MathML""><mi>𝒟</mi></math>", Some "\mathcal{D}");
("pair_33", "<math xmlns=""http://www.w3.org/1998/Math/MathML""><mi>ℝ</mi></math>", Some "\mathbb{R}");
("pair_34", "<math xmlns=""http://www.w3.org/1998/Math/MathML""><mn>²</mn></math>", Some "^{2}");
("pair_35", "<math xmlns=""http://www.w3.org/1998/Math/MathML""><mi>ℒ</mi></math>", Some "\mathcal{L}");
("pair_36", "<math xmlns=""http://www.w3.org/1998/Math/MathML""><mn>⁸</mn></math>", Some "^{8}");
("pair_37", "<math xmlns=""http://www.w3.org/1998/Math/MathML""><mn>⁷</mn></math>", Some "^{7}");
("pair_38", "<math xmlns=""http://www.w3.org/1998/Math/MathML""><mi>ⅅ</mi></math>", Some "\_{D}");
("pair_39", "<math xmlns=""http://www.w3.org/1998/Math/MathML""><mo>⌈</mo></math>", Some "\lceil");
("pair_40", "<math xmlns=""http://www.w3.org/1998/Math/MathML""><mo>⌉</mo></math>", Some "\rceil");
("pair_41", "<math xmlns=""http://www.w3.org/1998/Math/MathML""><mi>ÿ</mi></math>", Some "\ddot{y}");
("pair_42", "<math xmlns=""http://www.w3.org/1998/Math/MathML""><mo>●</mo></math>", Some "\circle");
("pair_43", "<math xmlns=""http://www.w3.org/1998/Math/MathML""><mo>〗</mo></math>", Some "\)|");
("pair_44", "<math xmlns=""http://www.w3.org/1998/Math/MathML""><mo>▫</mo></math>", Some "\square");
("pair_45", "<math xmlns=""http://www.w3.org/1998/Math/MathML""><mi>ω</mi></math>", Some "\omega");
("pair_46", "<math xmlns=""http://www.w3.org/1998/Math/MathML""><mi>ℱ</mi></math>", Some "\mathcal{F}");
("pair_47", "<math xmlns=""http://www.w3.org/1998/Math/MathML""><mi>𝓞</mi></math>", Some "\mathcal{O}");
("pair_48", "<math xmlns=""http://www.w3.org/1998/Math/MathML""><mi>𝑥</mi></math>", Some "x");
("pair_49", "<math xmlns=""http://www.w3.org/1998/Math/MathML""><mi>𝑦</mi></math>", Some "y");
("pair_50", "<math xmlns=""http://www.w3.org/1998/Math/MathML""><mi>𝑖</mi></math>", Some "i");
("pair_51", "<math xmlns=""http://www.w3.org/1998/Math/MathML""><mi>𝑧</mi></math>", Some "z");
("pair_52", "<math xmlns=""http://www.w3.org/1998/Math/MathML""><mi>𝑗</mi></math>", Some "j");
("pair_53", "<math xmlns=""http://www.w3.org/1998/Math/MathML""><mi>𝑘</mi></math>", Some "k");
("pair_54", "<math xmlns=""http://www.w3.org/1998/Math/MathML""><mi>𝐵</mi></math>", Some "\mathit{B}");
("pair_55", "<math xmlns=""http://www.w3.org/1998/Math/MathML""><mi>𝓓</mi></math>", Some "\mathcal{D}");
("pair_56", "<math xmlns=""http://www.w3.org/1998/Math/MathML""><mi>𝐷</mi></math>", Some "\mathit{D}");
("pair_57", "<math xmlns=""http://www.w3.org/1998/Math/MathML""><mi>𝑚</mi></math>", Some "m");
("pair_58", "<math xmlns=""http://www.w3.org/1998/Math/MathML""><mi>𝐼</mi></math>", Some "\mathit{I}");
("pair_59", "<math xmlns=""http://www.w3.org/1998/Math/MathML""><mi>𝑇</mi></math>", Some "\mathit{T}");
("pair_60", "<math xmlns=""http://www.w3.org/1998/Math/MathML""><mi>𝐾</mi></math>", Some "\mathit{K}");
("pair_61", "<math xmlns=""http://www.w3.org/1998/Math/MathML""><mi>𝑒</mi></math>", Some "e");
("pair_62", "<math xmlns=""http://www.w3.org/1998/Math/MathML""><mi>𝑟</mi></math>", Some "r");
("pair_63", "<math xmlns=""http://www.w3.org/1998/Math/MathML""><mi>𝑉</mi></math>", Some "\mathit{V}");
("pair_64", "<math xmlns=""http://www.w3.org/1998/Math/MathML""><mi>𝐴</mi></math>", Some "\mathit{A}");
("pair_65", "<math xmlns=""http://www.w3.org/1998/Math/MathML""><mi>𝑃</mi></math>", Some "\mathit{P}");
("pair_66", "<math xmlns=""http://www.w3.org/1998/Math/MathML""><mi>𝒞</mi></math>", Some "\mathcal{C}");
("pair_67", "<math xmlns=""http://www.w3.org/1998/Math/MathML""><mi>ɳ</mi></math>", Some "\eta");
("pair_68", "<math xmlns=""http://www.w3.org/1998/Math/MathML""><mi>Ν</mi></math>", Some "\nu");
("pair_69", "<math xmlns=""http://www.w3.org/1998/Math/MathML""><mi>ɳ</mi></math>", Some "\eta");
("pair_70", "<math xmlns=""http://www.w3.org/1998/Math/MathML""><mi>ⅈ</mi></math>", Some "i");
("pair_71", "<math xmlns=""http://www.w3.org/1998/Math/MathML""><mi>⍵</mi></math>", Some "\omega");
("pair_72", "<math xmlns=""http://www.w3.org/1998/Math/MathML""><mi>ο</mi></math>", Some "o");
("pair_73", "<math xmlns=""http://www.w3.org/1998/Math/MathML""><mi>ƒ</mi></math>", Some "f");
("pair_74", "<math xmlns=""http://www.w3.org/1998/Math/MathML""><mi>🇽</mi></math>", Some "x");
("pair_75", "<math xmlns=""http://www.w3.org/1998/Math/MathML""><mi>ℰ</mi></math>", Some "\mathcal{E}");
("pair_76", "<math xmlns=""http://www.w3.org/1998/Math/MathML""><mi>𝑝</mi></math>", Some "p");
("pair_77", "<math xmlns=""http://www.w3.org/1998/Math/MathML""><mi>𝑎</mi></math>", Some "a");
("pair_78", "<math xmlns=""http://www.w3.org/1998/Math/MathML""><mi>𝑆</mi></math>", Some "\mathit{S}");
("pair_79", "<math xmlns=""http://www.w3.org/1998/Math/MathML""><mi>𝑠</mi></math>", Some "s");
("pair_80", "<math xmlns=""http://www.w3.org/1998/Math/MathML""><mi>𝑜</mi></math>", Some "o");
("pair_81", "<math xmlns=""http://www.w3.org/1998/Math/MathML""><mi>𝛽</mi></math>", Some "\beta");
("pair_82", "<math xmlns=""http://www.w3.org/1998/Math/MathML""><mi>𝐶</mi></math>", Some "\mathit{C}");
("pair_83", "<math xmlns=""http://www.w3.org/1998/Math/MathML""><mi>𝑡</mi></math>", Some "t");
("pair_84", "<math xmlns=""http://www.w3.org/1998/Math/MathML""><mi>𝑅</mi></math>", Some "\mathit{R}");
("pair_85", "<math xmlns=""http://www.w3.org/1998/Math/MathML""><mi>𝑢</mi></math>", Some "u");
("pair_86", "<math xmlns=""http://www.w3.org/1998/Math/MathML""><mi>𝑏</mi></math>", Some "b");
("pair_87", "<math xmlns=""http://www.w3.org/1998/Math/MathML""><mi>ℚ</mi></math>", Some "\mathbb{Q}");
("pair_88", "<math xmlns=""http://www.w3.org/1998/Math/MathML""><mi>ŷ</mi></math>", Some "\hat{y}");
("pair_89", "<math xmlns=""http://www.w3.org/1998/Math/MathML""><mi>𝑀</mi></math>", Some "\mathit{M}");
("pair_90", "<math xmlns=""http://www.w3.org/1998/Math/MathML""><mi>𝑐</mi></math>", Some "c");
("pair_91", "<math xmlns=""http://www.w3.org/1998/Math/MathML""><mi>𝑛</mi></math>", Some "n");
("pair_92", "<math xmlns=""http://www.w3.org/1998/Math/MathML""><mi>𝑣</mi></math>", Some "v");
("pair_93", "<math xmlns=""http://www.w3.org/1998/Math/MathML""><mi>𝑔</mi></math>", Some "g");
("pair_94", "<math xmlns=""http://www.w3.org/1998/Math/MathML""><mi>;</mi></math>", Some ";");
("pair_95", "<math xmlns=""http://www.w3.org/1998/Math/MathML""><mi>℘</mi></math>", Some "\wp");
("pair_96", "<math xmlns=""http://www.w3.org/1998/Math/MathML""><mi>𝓕</mi></math>", Some "\mathcal{F}");
("pair_97", "<math xmlns=""http://www.w3.org/1998/Math/MathML""><mi>൦</mi></math>", Some "\circ");
("pair_98", "<math xmlns=""http://www.w3.org/1998/Math/MathML""><mi>𝔻</mi></math>", Some "\mathbb{D}");
("pair_99", "<math xmlns=""http://www.w3.org/1998/Math/MathML""><mi>𝕽</mi></math>", Some "\mathcal{R}");
("pair_100", "<math xmlns=""http://www.w3.org/1998/Math/MathML""><mi>┴</mi></math>", Some "\perp");
("pair_101", "<math xmlns=""http://www.w3.org/1998/Math/MathML""><mi>Ô</mi></math>", Some "\hat{O}");
("pair_102", "<math xmlns=""http://www.w3.org/1998/Math/MathML""><mi>✕</mi></math>", Some "\times");
("pair_103", "<math xmlns=""http://www.w3.org/1998/Math/MathML""><mi>ɵ</mi></math>", Some "\theta");
("pair_104", "<math xmlns=""http://www.w3.org/1998/Math/MathML""><mi>ℕ</mi></math>", Some "\mathbb{N}");
("pair_105", "<math xmlns=""http://www.w3.org/1998/Math/MathML""><mi>β</mi></math>", Some "\beta");
("pair_106", "<math xmlns=""http://www.w3.org/1998/Math/MathML""><mn>₀</mn></math>", Some "_{0}");
("pair_107", "<math xmlns=""http://www.w3.org/1998/Math/MathML""><mn>₁</mn></math>", Some "_{1}");
("pair_108", "<math xmlns=""http://www.w3.org/1998/Math/MathML""><mn>₂</mn></math>", Some "_{2}");
("pair_109", "<math xmlns=""http://www.w3.org/1998/Math/MathML""><mn>₃</mn></math>", Some "_{3}");
("pair_110", "<math xmlns=""http://www.w3.org/1998/Math/MathML""><mn>₄</mn></math>", Some "_{4}");
("pair_111", "<math xmlns=""http://www.w3.org/1998/Math/MathML""><mn>₅</mn></math>", Some "_{5}");
("pair_112", "<math xmlns=""http://www.w3.org/1998/Math/MathML""><mn>₆</mn></math>", Some "_{6}");
("pair_113", "<math xmlns=""http://www.w3.org/1998/Math/MathML""><mn>₇</mn></math>", Some "_{7}");
("pair_114", "<math xmlns=""http://www.w3.org/1998/Math/MathML""><mn>₈</mn></math>", Some "_{8}");
("pair_115", "<math xmlns=""http://www.w3.org/1998/Math/MathML""><mn>₉</mn></math>", Some "_{9}");
("pair_116", "<math xmlns=""http://www.w3.org/1998/Math/MathML""><mo>⟦</mo></math>", Some "\(|");
("pair_117", "<math xmlns=""http://www.w3.org/1998/Math/MathML""><mo>⟧</mo></math>", Some "\)|");
("pair_118", "<math xmlns=""http://www.w3.org/1998/Math/MathML""><mi>Ê</mi></math>", Some "\hat{E}");
("pair_119", "<math xmlns=""http://www.w3.org/1998/Math/MathML""><mo>‾</mo></math>", Some "\overline");
("pair_120", "<math xmlns=""http://www.w3.org/1998/Math/MathML""><mo>→</mo></math>", Some "\rightarrow");
("pair_121", "<math xmlns=""http://www.w3.org/1998/Math/MathML""><mo>∥</mo></math>", Some "\parallel");
("pair_122", "<math xmlns=""http://www.w3.org/1998/Math/MathML""><mi>𝑄</mi></math>", Some "\mathit{Q}");
("pair_123", "<math xmlns=""http://www.w3.org/1998/Math/MathML""><mi>𝑓</mi></math>", Some "f");
("pair_124", "<math xmlns=""http://www.w3.org/1998/Math/MathML""><mi>Ī</mi></math>", Some "\bar{I}");
("pair_125", "<math xmlns=""http://www.w3.org/1998/Math/MathML""><mo>≈</mo></math>", Some "\approx");
("pair_126", "<math xmlns=""http://www.w3.org/1998/Math/MathML""><mo>∣</mo></math>", Some "\mid");
("pair_127", "<math xmlns=""http://www.w3.org/1998/Math/MathML""><mo>∢</mo></math>", Some "\measuredangle");
("pair_128", "<math xmlns=""http://www.w3.org/1998/Math/MathML""><mi>Փ</mi></math>", Some "\Phi");
("pair_129", "<math xmlns=""http://www.w3.org/1998/Math/MathML""><mo>∮</mo></math>", Some "\oint");
("pair_130", "<math xmlns=""http://www.w3.org/1998/Math/MathML""><mo>∫</mo></math>", Some "\int");
("pair_131", "<math xmlns=""http://www.w3.org/1998/Math/MathML""><mo>∑</mo></math>", Some "\sum");
("pair_132", "<math xmlns=""http://www.w3.org/1998/Math/MathML""><mo>∏</mo></math>", Some "\prod");
("pair_133", "<math xmlns=""http://www.w3.org/1998/Math/MathML""><mo>∂</mo></math>", Some "\partial");
("pair_134", "<math xmlns=""http://www.w3.org/1998/Math/MathML""><mo>∀</mo></math>", Some "\forall");
("pair_135", "<math xmlns=""http://www.w3.org/1998/Math/MathML""><mo>∃</mo></math>", Some "\exists");
("pair_136", "<math xmlns=""http://www.w3.org/1998/Math/MathML""><mo>∈</mo></math>", Some "\in");
("pair_137", "<math xmlns=""http://www.w3.org/1998/Math/MathML""><mo>∋</mo></math>", Some "\ni");
("pair_138", "<math xmlns=""http://www.w3.org/1998/Math/MathML""><mo>∝</mo></math>", Some "\propto");
("pair_139", "<math xmlns=""http://www.w3.org/1998/Math/MathML""><mn>⁹</mn></math>", Some "^{9}");
("pair_140", "<math xmlns=""http://www.w3.org/1998/Math/MathML""><mo>⎜</mo></math>", Some "\mid");
("pair_141", "<math xmlns=""http://www.w3.org/1998/Math/MathML""><mo>⎻</mo></math>", Some "-");
("pair_142", "<math xmlns=""http://www.w3.org/1998/Math/MathML""><mi>𝑙</mi></math>", Some "l");
("pair_143", "<math xmlns=""http://www.w3.org/1998/Math/MathML""><mi>𝑖</mi></math>", Some "i");
("pair_144", "<math xmlns=""http://www.w3.org/1998/Math/MathML""><mi>𝔀</mi></math>", Some "w");
("pair_145", "<math xmlns=""http://www.w3.org/1998/Math/MathML""><mo>»</mo></math>", Some "\gg");
("pair_146", "<math xmlns=""http://www.w3.org/1998/Math/MathML""><mi>ν</mi></math>", Some "\nu");
("pair_147", "<math xmlns=""http://www.w3.org/1998/Math/MathML""><mo>ħ</mo></math>", Some "\hbar");
("pair_148", "<math xmlns=""http://www.w3.org/1998/Math/MathML""><mi>ፈ</mi></math>", Some "");
("pair_149", "<math xmlns=""http://www.w3.org/1998/Math/MathML""><mi>𝑑</mi></math>", Some "d");
("pair_150", "<math xmlns=""http://www.w3.org/1998/Math/MathML""><mi>𝜋</mi></math>", Some "\pi");
("pair_151", "<math xmlns=""http://www.w3.org/1998/Math/MathML""><mo>⦨</mo></math>", Some "\measuredangle");
("pair_152", "<math xmlns=""http://www.w3.org/1998/Math/MathML""><mi>п</mi></math>", Some "\pi");
("pair_153", "<math xmlns=""http://www.w3.org/1998/Math/MathML""><mo>⬆</mo></math>", Some "\uparrow");
("pair_154", "<math xmlns=""http://www.w3.org/1998/Math/MathML""><mo>⬇</mo></math>", Some "\downarrow");
("pair_155", "<math xmlns=""http://www.w3.org/1998/Math/MathML""><mo>⬅</mo></math>", Some "\leftarrow");
("pair_156", "<math xmlns=""http://www.w3.org/1998/Math/MathML""><mo>⮕</mo></math>", Some "\rightarrow");
("pair_157", "<math xmlns=""http://www.w3.org/1998/Math/MathML""><mi>Є</mi></math>", Some "\epsilon");
("pair_158", "<math xmlns=""http://www.w3.org/1998/Math/MathML""><mo>⇒</mo></math>", Some "\Rightarrow");
("pair_159", "<math xmlns=""http://www.w3.org/1998/Math/MathML""><mo>⇔</mo></math>", Some "\Leftrightarrow");
("pair_160", "<math xmlns=""http://www.w3.org/1998/Math/MathML""><mo>⇐</mo></math>", Some "\Leftarrow");
("pair_161", "<math xmlns=""http://www.w3.org/1998/Math/MathML""><mo>⇑</mo></math>", Some "\Uparrow");
("pair_162", "<math xmlns=""http://www.w3.org/1998/Math/MathML""><mo>⇓</mo></math>", Some "\Downarrow");
("pair_163", "<math xmlns=""http://www.w3.org/1998/Math/MathML""><mo>ˆ</mo></math>", Some "\hat");
("pair_164", "<math xmlns=""http://www.w3.org/1998/Math/MathML""><mo>¸</mo></math>", Some ",");
("pair_165", "<math xmlns=""http://www.w3.org/1998/Math/MathML""><mi>ế</mi></math>", Some "\hat{e}");
("pair_166", "<math xmlns=""http://www.w3.org/1998/Math/MathML""><mo>⦪</mo></math>", Some "\measuredangle");
("pair_167", "<math xmlns=""http://www.w3.org/1998/Math/MathML""><mi>¢</mi></math>", Some "\cent");
("pair_168", "<math xmlns=""http://www.w3.org/1998/Math/MathML""><mo>⎼</mo></math>", Some "-");
("pair_169", "<math xmlns=""http://www.w3.org/1998/Math/MathML""><mi>𝐹</mi></math>", Some "\mathit{F}");
("pair_170", "<math xmlns=""http://www.w3.org/1998/Math/MathML""><mo>↓</mo></math>", Some "\downarrow");
("pair_171", "<math xmlns=""http://www.w3.org/1998/Math/MathML""><mi>Ι</mi></math>", Some "\mathit{I}");
("pair_172", "<math xmlns=""http://www.w3.org/1998/Math/MathML""><mi>δ</mi></math>", Some "\delta");
("pair_173", "<math xmlns=""http://www.w3.org/1998/Math/MathML""><mo>⤹</mo></math>", Some "\downarrow");
("pair_174", "<math xmlns=""http://www.w3.org/1998/Math/MathML""><mo>⤷</mo></math>", Some "\Rsh");
("pair_175", "<math xmlns=""http://www.w3.org/1998/Math/MathML""><mo>⤶</mo></math>", Some "\Lsh");
("pair_176", "<math xmlns=""http://www.w3.org/1998/Math/MathML""><mo>⤵</mo></math>", Some "\downarrow");
("pair_177", "<math xmlns=""http://www.w3.org/1998/Math/MathML""><mo>⤴</mo></math>", Some "\uparrow");
("pair_178", "<math xmlns=""http://www.w3.org/1998/Math/MathML""><mo>⤳</mo></math>", Some "\rightarrow");
("pair_179", "<math xmlns=""http://www.w3.org/1998/Math/MathML""><mo>⤸</mo></math>", Some "\downarrow");
("pair_180", "<math xmlns=""http://www.w3.org/1998/Math/MathML""><mo>⤺</mo></math>", Some "\leftarrow");
("pair_181", "<math xmlns=""http://www.w3.org/1998/Math/MathML""><mo>⤻</mo></math>", Some "\rightarrow");
("pair_182", "<math xmlns=""http://www.w3.org/1998/Math/MathML""><mi>ă</mi></math>", Some "\breve{a}");
("pair_183", "<math xmlns=""http://www.w3.org/1998/Math/MathML""><mn>⁵</mn></math>", Some "^{5}");
("pair_184", "<math xmlns=""http://www.w3.org/1998/Math/MathML""><mi>Δ</mi></math>", Some "\Delta");
("pair_185", "<math xmlns=""http://www.w3.org/1998/Math/MathML""><mi>ő</mi></math>", Some "\ddot{o}");
("pair_186", "<math xmlns=""http://www.w3.org/1998/Math/MathML""><mi>Î</mi></math>", Some "\hat{I}");
("pair_187", "<math xmlns=""http://www.w3.org/1998/Math/MathML""><mi>𝜓</mi></math>", Some "\psi");
("pair_188", "<math xmlns=""http://www.w3.org/1998/Math/MathML""><mi>𝜑</mi></math>", Some "\varphi");
("pair_189", "<math xmlns=""http://www.w3.org/1998/Math/MathML""><mo>√</mo></math>", Some "\sqrt{}");
("pair_190", "<math xmlns=""http://www.w3.org/1998/Math/MathML""><mi>♥</mi></math>", Some "\heartsuit");
("pair_191", "<math xmlns=""http://www.w3.org/1998/Math/MathML""><mi>ϴ</mi></math>", Some "\theta");
("pair_192", "<math xmlns=""http://www.w3.org/1998/Math/MathML""><mn>⁰</mn></math>", Some "^{0}");
("pair_193", "<math xmlns=""http://www.w3.org/1998/Math/MathML""><mi>ɸ</mi></math>", Some "\phi");
("pair_194", "<math xmlns=""http://www.w3.org/1998/Math/MathML""><mi>є</mi></math>", Some "\epsilon");
("pair_195", "<math xmlns=""http://www.w3.org/1998/Math/MathML""><mi>ơ</mi></math>", Some "o");
("pair_196", "<math xmlns=""http://www.w3.org/1998/Math/MathML""><mi>О</mi></math>", Some "0");
("pair_197", "<math xmlns=""http://www.w3.org/1998/Math/MathML""><mi>ม</mi></math>", Some "\mathbf{m}");
("pair_198", "<math xmlns=""http://www.w3.org/1998/Math/MathML""><mi>Ė</mi></math>", Some "\dot{E}");
("pair_199", "<math xmlns=""http://www.w3.org/1998/Math/MathML""><mi>Υ</mi></math>", Some "Y");
("pair_200", "<math xmlns=""http://www.w3.org/1998/Math/MathML""><mi>ā</mi></math>", Some "\bar{a}");
("pair_201", "<math xmlns=""http://www.w3.org/1998/Math/MathML""><mo>・</mo></math>", Some "\cdot");
("pair_202", "<math xmlns=""http://www.w3.org/1998/Math/MathML""><mi>х</mi></math>", Some "x");
("pair_203", "<math xmlns=""http://www.w3.org/1998/Math/MathML""><mi>ε</mi></math>", Some "\epsilon");
("pair_204", "<math xmlns=""http://www.w3.org/1998/Math/MathML""><mi>𝜀</mi></math>", Some "\epsilon");
("pair_205", "<math xmlns=""http://www.w3.org/1998/Math/MathML""><mi>𝑞</mi></math>", Some "q");
("pair_206", "<math xmlns=""http://www.w3.org/1998/Math/MathML""><mo>¦</mo></math>", Some "\mid");
("pair_207", "<math xmlns=""http://www.w3.org/1998/Math/MathML""><mi>𝞆</mi></math>", Some "\mathbf{X}");
("pair_208", "<math xmlns=""http://www.w3.org/1998/Math/MathML""><mo>⋋</mo></math>", Some "\bowtie");
("pair_209", "<math xmlns=""http://www.w3.org/1998/Math/MathML""><mo>⋊</mo></math>", Some "\ltimes");
("pair_210", "<math xmlns=""http://www.w3.org/1998/Math/MathML""><mo>⋉</mo></math>", Some "\rtimes");
("pair_211", "<math xmlns=""http://www.w3.org/1998/Math/MathML""><mo>⋈</mo></math>", Some "\Join");
("pair_212", "<math xmlns=""http://www.w3.org/1998/Math/MathML""><mi>φ</mi></math>", Some "\varphi");
("pair_213", "<math xmlns=""http://www.w3.org/1998/Math/MathML""><mo>£</mo></math>", Some "\pounds");
("pair_214", "<math xmlns=""http://www.w3.org/1998/Math/MathML""><mo>⦫</mo></math>", Some "\measuredangle");
("pair_215", "<math xmlns=""http://www.w3.org/1998/Math/MathML""><mo>⦪</mo></math>", Some "\measuredangle");
("pair_216", "<math xmlns=""http://www.w3.org/1998/Math/MathML""><mo>⦩</mo></math>", Some "\measuredangle");
("pair_217", "<math xmlns=""http://www.w3.org/1998/Math/MathML""><mo>↑</mo></math>", Some "\uparrow");
("pair_218", "<math xmlns=""http://www.w3.org/1998/Math/MathML""><mo>▱</mo></math>", Some "\square");
("pair_219", "<math xmlns=""http://www.w3.org/1998/Math/MathML""><mo>▰</mo></math>", Some "\blacksquare");
("pair_220", "<math xmlns=""http://www.w3.org/1998/Math/MathML""><mo>▯</mo></math>", Some "\square");
("pair_221", "<math xmlns=""http://www.w3.org/1998/Math/MathML""><mo>▮</mo></math>", Some "\blacksquare");
("pair_222", "<math xmlns=""http://www.w3.org/1998/Math/MathML""><mo>▭</mo></math>", Some "\square");
("pair_223", "<math xmlns=""http://www.w3.org/1998/Math/MathML""><mi>Ε</mi></math>", Some "\mathbf{E}");
("pair_224", "<math xmlns=""http://www.w3.org/1998/Math/MathML""><mo>≠</mo></math>", Some "\neq");
("pair_225", "<math xmlns=""http://www.w3.org/1998/Math/MathML""><mo>≡</mo></math>", Some "\equiv");
("pair_226", "<math xmlns=""http://www.w3.org/1998/Math/MathML""><mo>≤</mo></math>", Some "\leq");
("pair_227", "<math xmlns=""http://www.w3.org/1998/Math/MathML""><mo>≥</mo></math>", Some "\geq");
("pair_228", "<math xmlns=""http://www.w3.org/1998/Math/MathML""><mo>⊂</mo></math>", Some "\subset");
("pair_229", "<math xmlns=""http://www.w3.org/1998/Math/MathML""><mo>⊃</mo></math>", Some "\supset");
("pair_230", "<math xmlns=""http://www.w3.org/1998/Math/MathML""><mo>⊆</mo></math>", Some "\subseteq");
("pair_231", "<math xmlns=""http://www.w3.org/1998/Math/MathML""><mo>⊇</mo></math>", Some "\supseteq");
("pair_232", "<math xmlns=""http://www.w3.org/1998/Math/MathML""><mo>⦣</mo></math>", Some "\ulcorner");
("pair_233", "<math xmlns=""http://www.w3.org/1998/Math/MathML""><mo>⦩</mo></math>", Some "\measuredangle");
("pair_234", "<math xmlns=""http://www.w3.org/1998/Math/MathML""><mo>⨮</mo></math>", Some "\bigodot");
("pair_235", "<math xmlns=""http://www.w3.org/1998/Math/MathML""><mo>⟲</mo></math>", Some "\circlearrowleft");
("pair_236", "<math xmlns=""http://www.w3.org/1998/Math/MathML""><mo>⟳</mo></math>", Some "\circlearrowright");
("pair_237", "<math xmlns=""http://www.w3.org/1998/Math/MathML""><mo>⟵</mo></math>", Some "\leftarrow");
("pair_238", "<math xmlns=""http://www.w3.org/1998/Math/MathML""><mo>⟶</mo></math>", Some "\rightarrow");
("pair_239", "<math xmlns=""http://www.w3.org/1998/Math/MathML""><mi>℟</mi></math>", Some "\mathcal{R}");
("pair_240", "<math xmlns=""http://www.w3.org/1998/Math/MathML""><mi>α</mi></math>", Some "\alpha");
("pair_241", "<math xmlns=""http://www.w3.org/1998/Math/MathML""><mi>त</mi></math>", Some "");
("pair_242", "<math xmlns=""http://www.w3.org/1998/Math/MathML""><mo>↗</mo></math>", Some "\nearrow");
("pair_243", "<math xmlns=""http://www.w3.org/1998/Math/MathML""><mi>ṁ</mi></math>", Some "m");
("pair_244", "<math xmlns=""http://www.w3.org/1998/Math/MathML""><mi>𝚵</mi></math>", Some "\Xi");
("pair_245", "<math xmlns=""http://www.w3.org/1998/Math/MathML""><mi>𝐽</mi></math>", Some "\mathit{J}");
("pair_246", "<math xmlns=""http://www.w3.org/1998/Math/MathML""><mo>◻</mo></math>", Some "\Box");
("pair_247", "<math xmlns=""http://www.w3.org/1998/Math/MathML""><mi>𝑋</mi></math>", Some "\mathit{X}");
("pair_248", "<math xmlns=""http://www.w3.org/1998/Math/MathML""><mi>𝑌</mi></math>", Some "\mathit{Y}");
("pair_249", "<math xmlns=""http://www.w3.org/1998/Math/MathML""><mi>Ф</mi></math>", Some "\Phi");
("pair_250", "<math xmlns=""http://www.w3.org/1998/Math/MathML""><mi>⍬</mi></math>", Some "\theta");
("pair_251", "<math xmlns=""http://www.w3.org/1998/Math/MathML""><mi>τ</mi></math>", Some "\tau");
("pair_252", "<math xmlns=""http://www.w3.org/1998/Math/MathML""><mi>Β</mi></math>", Some "\mathsf{B}");
("pair_253", "<math xmlns=""http://www.w3.org/1998/Math/MathML""><mo>⧸</mo></math>", Some "/");
("pair_254", "<math xmlns=""http://www.w3.org/1998/Math/MathML""><mo>⧹</mo></math>", Some "\backslash");
("pair_255", "<math xmlns=""http://www.w3.org/1998/Math/MathML""><mo>⊤</mo></math>", Some "\top");
("pair_256", "<math xmlns=""http://www.w3.org/1998/Math/MathML""><mi>Ō</mi></math>", Some "\bar{O}");
("pair_257", "<math xmlns=""http://www.w3.org/1998/Math/MathML""><mo>¥</mo></math>", Some "\yen");
("pair_258", "<math xmlns=""http://www.w3.org/1998/Math/MathML""><mo>⁽</mo></math>", Some "^{(}");
("pair_259", "<math xmlns=""http://www.w3.org/1998/Math/MathML""><mo>⁾</mo></math>", Some "^{)}");
("pair_260", "<math xmlns=""http://www.w3.org/1998/Math/MathML""><mo>⦇</mo></math>", Some "\(|");
("pair_261", "<math xmlns=""http://www.w3.org/1998/Math/MathML""><mo>⦈</mo></math>", Some "|\)");
("pair_262", "<math xmlns=""http://www.w3.org/1998/Math/MathML""><mo>∅</mo></math>", Some "\emptyset");
("pair_263", "<math xmlns=""http://www.w3.org/1998/Math/MathML""><mi>①</mi></math>", Some "\textcircled{1}");
("pair_264", "<math xmlns=""http://www.w3.org/1998/Math/MathML""><mi>②</mi></math>", Some "\textcircled{2}");
("pair_265", "<math xmlns=""http://www.w3.org/1998/Math/MathML""><mi>③</mi></math>", Some "\textcircled{3}");
("pair_266", "<math xmlns=""http://www.w3.org/1998/Math/MathML""><mi>④</mi></math>", Some "\textcircled{4}");
("pair_267", "<math xmlns=""http://www.w3.org/1998/Math/MathML""><mi>⑤</mi></math>", Some "\textcircled{5}");
("pair_268", "<math xmlns=""http://www.w3.org/1998/Math/MathML""><mi>⑥</mi></math>", Some "\textcircled{6}");
("pair_269", "<math xmlns=""http://www.w3.org/1998/Math/MathML""><mi>⑦</mi></math>", Some "\textcircled{7}");
("pair_270", "<math xmlns=""http://www.w3.org/1998/Math/MathML""><mi>⑧</mi></math>", Some "\textcircled{8}");
("pair_271", "<math xmlns=""http://www.w3.org/1998/Math/MathML""><mi>⑨</mi></math>", Some "\textcircled{9}");
("pair_272", "<math xmlns=""http://www.w3.org/1998/Math/MathML""><mi>⑩</mi></math>", Some "\textcircled{10}");
("pair_273", "<math xmlns=""http://www.w3.org/1998/Math/MathML""><mi>⑪</mi></math>", Some "\textcircled{11}");
("pair_274", "<math xmlns=""http://www.w3.org/1998/Math/MathML""><mi>⑫</mi></math>", Some "\textcircled{12}");
("pair_275", "<math xmlns=""http://www.w3.org/1998/Math/MathML""><mi>⑬</mi></math>", Some "\textcircled{13}");
("pair_276", "<math xmlns=""http://www.w3.org/1998/Math/MathML""><mi>⑭</mi></math>", Some "\textcircled{14}");
("pair_277", "<math xmlns=""http://www.w3.org/1998/Math/MathML""><mi>⑮</mi></math>", Some "\textcircled{15}");
("pair_278", "<math xmlns=""http://www.w3.org/1998/Math/MathML""><mi>⑯</mi></math>", Some "\textcircled{16}");
("pair_279", "<math xmlns=""http://www.w3.org/1998/Math/MathML""><mi>⑰</mi></math>", Some "\textcircled{17}");
("pair_280", "<math xmlns=""http://www.w3.org/1998/Math/MathML""><mi>⑱</mi></math>", Some "\textcircled{18}");
("pair_281", "<math xmlns=""http://www.w3.org/1998/Math/MathML""><mi>⑲</mi></math>", Some "\textcircled{19}");
("pair_282", "<math xmlns=""http://www.w3.org/1998/Math/MathML""><mi>⑳</mi></math>", Some "\textcircled{20}");
("pair_283", "<math xmlns=""http://www.w3.org/1998/Math/MathML""><mi>⓪</mi></math>", Some "\textcircled{0}");
("pair_284", "<math xmlns=""http://www.w3.org/1998/Math/MathML""><mi>𝑁</mi></math>", Some "\mathit{N}");
("pair_285", "<math xmlns=""http://www.w3.org/1998/Math/MathML""><mi>Ú</mi></math>", Some "\acute{U}");
("pair_286", "<math xmlns=""http://www.w3.org/1998/Math/MathML""><mi>𝚟</mi></math>", Some "v");
("pair_287", "<math xmlns=""http://www.w3.org/1998/Math/MathML""><mi>𝛟</mi></math>", Some "\varphi");
("pair_288", "<math xmlns=""http://www.w3.org/1998/Math/MathML""><mi>ß</mi></math>", Some "\ss");
("pair_289", "<math xmlns=""http://www.w3.org/1998/Math/MathML""><mo>十</mo></math>", Some "+");
("pair_290", "<math xmlns=""http://www.w3.org/1998/Math/MathML""><mo>土</mo></math>", Some "\pm");
("pair_291", "<math xmlns=""http://www.w3.org/1998/Math/MathML""><mi>ʋ</mi></math>", Some "\upsilon");
("pair_292", "<math xmlns=""http://www.w3.org/1998/Math/MathML""><mi>ɭ</mi></math>", Some "\ell");
("pair_293", "<math xmlns=""http://www.w3.org/1998/Math/MathML""><mi>λ</mi></math>", Some "\lambda");
("pair_294", "<math xmlns=""http://www.w3.org/1998/Math/MathML""><mi>Ӷ</mi></math>", Some "\Gamma");
("pair_295", "<math xmlns=""http://www.w3.org/1998/Math/MathML""><mo>⎥</mo></math>", Some "\mid");
("pair_296", "<math xmlns=""http://www.w3.org/1998/Math/MathML""><mi>ρ</mi></math>", Some "\rho");
("pair_297", "<math xmlns=""http://www.w3.org/1998/Math/MathML""><mi>ℙ</mi></math>", Some "\mathbb{P}");
("pair_298", "<math xmlns=""http://www.w3.org/1998/Math/MathML""><mo>։</mo></math>", Some ":");
("pair_299", "<math xmlns=""http://www.w3.org/1998/Math/MathML""><mi>Ћ</mi></math>", Some "\hbar");
("pair_300", "<math xmlns=""http://www.w3.org/1998/Math/MathML""><mi>ϕ</mi></math>", Some "\phi");
("pair_301", "<math xmlns=""http://www.w3.org/1998/Math/MathML""><mi>а</mi></math>", Some "a");
("pair_302", "<math xmlns=""http://www.w3.org/1998/Math/MathML""><mi>р</mi></math>", Some "p");
("pair_303", "<math xmlns=""http://www.w3.org/1998/Math/MathML""><mi>𝓍</mi></math>", Some "x");
("pair_304", "<math xmlns=""http://www.w3.org/1998/Math/MathML""><mi>𝓎</mi></math>", Some "y");
("pair_305", "<math xmlns=""http://www.w3.org/1998/Math/MathML""><mi>𝓏</mi></math>", Some "z");
("pair_306", "<math xmlns=""http://www.w3.org/1998/Math/MathML""><mi>𝓐</mi></math>", Some "\mathcal{A}");
("pair_307", "<math xmlns=""http://www.w3.org/1998/Math/MathML""><mo>⦵</mo></math>", Some "\ominus");
("pair_308", "<math xmlns=""http://www.w3.org/1998/Math/MathML""><mo>⦬</mo></math>", Some "\measuredangle");
("pair_309", "<math xmlns=""http://www.w3.org/1998/Math/MathML""><mo>⦮</mo></math>", Some "\measuredangle");
("pair_310", "<math xmlns=""http://www.w3.org/1998/Math/MathML""><mi>ö</mi></math>", Some "\ddot{o}");
("pair_311", "<math xmlns=""http://www.w3.org/1998/Math/MathML""><mo>⊿</mo></math>", Some "\triangle");
("pair_312", "<math xmlns=""http://www.w3.org/1998/Math/MathML""><mo>†</mo></math>", Some "\dagger");
("pair_313", "<math xmlns=""http://www.w3.org/1998/Math/MathML""><mi>𝐻</mi></math>", Some "\mathit{H}");
("pair_314", "<math xmlns=""http://www.w3.org/1998/Math/MathML""><mi>𝑤</mi></math>", Some "w");
("pair_315", "<math xmlns=""http://www.w3.org/1998/Math/MathML""><mi>𝑂</mi></math>", Some "\mathit{O}");
("pair_316", "<math xmlns=""http://www.w3.org/1998/Math/MathML""><mi>𝑈</mi></math>", Some "\mathit{U}");
("pair_317", "<math xmlns=""http://www.w3.org/1998/Math/MathML""><mo>เ</mo></math>", Some "\prime");
("pair_318", "<math xmlns=""http://www.w3.org/1998/Math/MathML""><mi>ü</mi></math>", Some "\ddot{u}");
("pair_319", "<math xmlns=""http://www.w3.org/1998/Math/MathML""><mi>𝜆</mi></math>", Some "\lambda");
("pair_320", "<math xmlns=""http://www.w3.org/1998/Math/MathML""><mo>«</mo></math>", Some "\ll");
("pair_321", "<math xmlns=""http://www.w3.org/1998/Math/MathML""><mo>»</mo></math>", Some "\gg");
("pair_322", "<math xmlns=""http://www.w3.org/1998/Math/MathML""><mi>γ</mi></math>", Some "\gamma");
("pair_323", "<math xmlns=""http://www.w3.org/1998/Math/MathML""><mi>Α</mi></math>", Some "\mathsf{A}");
("pair_324", "<math xmlns=""http://www.w3.org/1998/Math/MathML""><mo>ⁿ</mo></math>", Some "^{n}");
("pair_325", "<math xmlns=""http://www.w3.org/1998/Math/MathML""><mo>∘</mo></math>", Some "\circ");
("pair_326", "<math xmlns=""http://www.w3.org/1998/Math/MathML""><mi>⍴</mi></math>", Some "\rho");
("pair_327", "<math xmlns=""http://www.w3.org/1998/Math/MathML""><mo>⦁</mo></math>", Some "\cdot");
("pair_328", "<math xmlns=""http://www.w3.org/1998/Math/MathML""><mo>✔</mo></math>", Some "\checkmark");
("pair_329", "<math xmlns=""http://www.w3.org/1998/Math/MathML""><mo>✗</mo></math>", Some "\times");
("pair_330", "<math xmlns=""http://www.w3.org/1998/Math/MathML""><mo>‖</mo></math>", Some "\parallel");
("pair_331", "<math xmlns=""http://www.w3.org/1998/Math/MathML""><mi>‖</mi></math>", Some "\parallel");
("pair_332", "<math xmlns=""http://www.w3.org/1998/Math/MathML""><mo>│</mo></math>", Some "\mid");
("pair_333", "<math xmlns=""http://www.w3.org/1998/Math/MathML""><mi>│</mi></math>", Some "\mid");
("pair_334", "<math xmlns=""http://www.w3.org/1998/Math/MathML""><mo>%</mo></math>", Some "\%");
("pair_335", "<math xmlns=""http://www.w3.org/1998/Math/MathML""><mi>%</mi></math>", Some "\%");
("pair_336", "<math xmlns=""http://www.w3.org/1998/Math/MathML""><mo>“</mo></math>", Some "\text{``}");
("pair_337", "<math xmlns=""http://www.w3.org/1998/Math/MathML""><mi>“</mi></math>", Some "\text{``}");
("pair_338", "<math xmlns=""http://www.w3.org/1998/Math/MathML""><mo>”</mo></math>", Some "\""");
("pair_339", "<math xmlns=""http://www.w3.org/1998/Math/MathML""><mi>ñ</mi></math>", Some "\tilde{n}");
("pair_340", "<math xmlns=""http://www.w3.org/1998/Math/MathML""><mo>〈</mo></math>", Some "\langle");
("pair_341", "<math xmlns=""http://www.w3.org/1998/Math/MathML""><mi>〈</mi></math>", Some "\langle");
("pair_342", "<math xmlns=""http://www.w3.org/1998/Math/MathML""><mo>〉</mo></math>", Some "\rangle");
("pair_343", "<math xmlns=""http://www.w3.org/1998/Math/MathML""><mi>〉</mi></math>", Some "\rangle");
("pair_344", "<math xmlns=""http://www.w3.org/1998/Math/MathML""><mo>$</mo></math>", Some "\$");
("pair_345", "<math xmlns=""http://www.w3.org/1998/Math/MathML""><mi>$</mi></math>", Some "\$");
("pair_346", "<math xmlns=""http://www.w3.org/1998/Math/MathML""><mo>#</mo></math>", Some "\#");
("pair_347", "<math xmlns=""http://www.w3.org/1998/Math/MathML""><mi>#</mi></math>", Some "\#");
("pair_348", "<math xmlns=""http://www.w3.org/1998/Math/MathML""><mo>℃</mo></math>", Some "\text{\textdegree C}");
("pair_349", "<math xmlns=""http://www.w3.org/1998/Math/MathML""><mo>℉</mo></math>", Some "\text{\textdegree F}");
("pair_350", "<math xmlns=""http://www.w3.org/1998/Math/MathML""><mi>℃</mi></math>", Some "\text{\textdegree C}");
("pair_351", "<math xmlns=""http://www.w3.org/1998/Math/MathML""><mi>℉</mi></math>", Some "\text{\textdegree F}");
("pair_352", "<math xmlns=""http://www.w3.org/1998/Math/MathML""><mo>⟨</mo></math>", Some "\langle");
("pair_353", "<math xmlns=""http://www.w3.org/1998/Math/MathML""><mo>⟩</mo></math>", Some "\rangle");
("pair_354", "<math xmlns=""http://www.w3.org/1998/Math/MathML""><mi>ṽ</mi></math>", Some "\tilde{v}");
("pair_355", "<math xmlns=""http://www.w3.org/1998/Math/MathML""><mo>⌊</mo></math>", Some "\lfloor");
("pair_356", "<math xmlns=""http://www.w3.org/1998/Math/MathML""><mi>π</mi></math>", Some "\pi");
("pair_357", "<math xmlns=""http://www.w3.org/1998/Math/MathML""><mn>³</mn></math>", Some "^{3}");
("pair_358", "<math xmlns=""http://www.w3.org/1998/Math/MathML""><mo>⁰</mo></math>", Some "^{0}");
("pair_359", "<math xmlns=""http://www.w3.org/1998/Math/MathML""><mn>⁴</mn></math>", Some "^{4}");
("pair_360", "<math xmlns=""http://www.w3.org/1998/Math/MathML""><mn>⁶</mn></math>", Some "^{6}");
("pair_361", "<math xmlns=""http://www.w3.org/1998/Math/MathML""><mo>〗</mo></math>", Some "\)|");
("pair_362", "<math xmlns=""http://www.w3.org/1998/Math/MathML""><mo>⌋</mo></math>", Some "\rfloor");
("pair_363", "<math xmlns=""http://www.w3.org/1998/Math/MathML""><mo>█</mo></math>", Some "\blacksquare");
("pair_364", "<math xmlns=""http://www.w3.org/1998/Math/MathML""><mi>ĵ</mi></math>", Some "\hat{j}");
("pair_365", "<math xmlns=""http://www.w3.org/1998/Math/MathML""><mo>¾</mo></math>", Some "\dfrac{3}{4}");
("pair_366", "<math xmlns=""http://www.w3.org/1998/Math/MathML""><mi>𝓛</mi></math>", Some "\mathcal{L}");
("pair_367", "<math xmlns=""http://www.w3.org/1998/Math/MathML""><mo>⟦</mo></math>", Some "\(|");
("pair_368", "<math xmlns=""http://www.w3.org/1998/Math/MathML""><mo>⟧</mo></math>", Some "\)|");
("pair_369", "<math xmlns=""http://www.w3.org/1998/Math/MathML""><mo>●</mo></math>", Some "\circle");
("pair_370", "<math xmlns=""http://www.w3.org/1998/Math/MathML""><mi>●</mi></math>", Some "\circle");
("pair_371", "<math xmlns=""http://www.w3.org/1998/Math/MathML""><mo>▫</mo></math>", Some "\square");
("pair_372", "<math xmlns=""http://www.w3.org/1998/Math/MathML""><mi>▫</mi></math>", Some "\square");
("pair_373", "<math xmlns=""http://www.w3.org/1998/Math/MathML""><mo>℧</mo></math>", Some "\mho");
("pair_374", "<math xmlns=""http://www.w3.org/1998/Math/MathML""><mi>℧</mi></math>", Some "\mho");
("pair_375", "<math xmlns=""http://www.w3.org/1998/Math/MathML""><mi>ȷ</mi></math>", Some "\mathsf{J}");
("pair_376", "<math xmlns=""http://www.w3.org/1998/Math/MathML""><mo>⌈</mo></math>", Some "\lceil");
("pair_377", "<math xmlns=""http://www.w3.org/1998/Math/MathML""><mi>⌉</mi></math>", Some "\rceil");
("pair_378", "<math xmlns=""http://www.w3.org/1998/Math/MathML""><mo>⌉</mo></math>", Some "\rceil");
("pair_379", "<math xmlns=""http://www.w3.org/1998/Math/MathML""><mi>ℇ</mi></math>", Some "\varepsilon");
("pair_380", "<math xmlns=""http://www.w3.org/1998/Math/MathML""><mn>⁸</mn></math>", Some "^{8}");
("pair_381", "<math xmlns=""http://www.w3.org/1998/Math/MathML""><mn>⁷</mn></math>", Some "^{7}");
("pair_382", "<math xmlns=""http://www.w3.org/1998/Math/MathML""><mn>⁴</mn></math>", Some "^{4}");
("pair_383", "<math xmlns=""http://www.w3.org/1998/Math/MathML""><mi>𝟙</mi></math>", Some "\mathbb{1}");
("pair_384", "<math xmlns=""http://www.w3.org/1998/Math/MathML""><mi>θ</mi></math>", Some "\theta");
("pair_385", "<math xmlns=""http://www.w3.org/1998/Math/MathML""><mi>ẑ</mi></math>", Some "\hat{z}");
("pair_386", "<math xmlns=""http://www.w3.org/1998/Math/MathML""><mi>ⅇ</mi></math>", Some "\text{e}");
("pair_387", "<math xmlns=""http://www.w3.org/1998/Math/MathML""><mo>∞</mo></math>", Some "\infty");
("pair_388", "<math xmlns=""http://www.w3.org/1998/Math/MathML""><mi>Κ</mi></math>", Some "\mathsf{K}");
("pair_389", "<math xmlns=""http://www.w3.org/1998/Math/MathML""><mi>ɼ</mi></math>", Some "r");
("pair_390", "<math xmlns=""http://www.w3.org/1998/Math/MathML""><mn>₁</mn></math>", Some "_{1}");
("pair_391", "<math xmlns=""http://www.w3.org/1998/Math/MathML""><mn>₂</mn></math>", Some "_{2}");
("pair_392", "<math xmlns=""http://www.w3.org/1998/Math/MathML""><mn>₃</mn></math>", Some "_{3}");
("pair_393", "<math xmlns=""http://www.w3.org/1998/Math/MathML""><mi>ω</mi></math>", Some "\omega");
("pair_394", "<math xmlns=""http://www.w3.org/1998/Math/MathML""><mo>↛</mo></math>", Some "\nrightarrow");
("pair_395", "<math xmlns=""http://www.w3.org/1998/Math/MathML""><mi>↛</mi></math>", Some "\nrightarrow");
("pair_396", "<math xmlns=""http://www.w3.org/1998/Math/MathML""><mo>∣</mo></math>", Some "\mid");
("pair_397", "<math xmlns=""http://www.w3.org/1998/Math/MathML""><mi>∣</mi></math>", Some "\mid");
("pair_398", "<math xmlns=""http://www.w3.org/1998/Math/MathML""><mo>ˆ</mo></math>", Some "\hat");
("pair_399", "<math xmlns=""http://www.w3.org/1998/Math/MathML""><mi>ˆ</mi></math>", Some "\hat{}");
("pair_400", "<math xmlns=""http://www.w3.org/1998/Math/MathML""><mo>‾</mo></math>", Some "\overline");
("pair_401", "<math xmlns=""http://www.w3.org/1998/Math/MathML""><mo>→</mo></math>", Some "\rightarrow");
("pair_402", "<math xmlns=""http://www.w3.org/1998/Math/MathML""><mi>→</mi></math>", Some "\rightarrow");
("pair_403", "<math xmlns=""http://www.w3.org/1998/Math/MathML""><mn>₀</mn></math>", Some "_{0}");
("pair_404", "<math xmlns=""http://www.w3.org/1998/Math/MathML""><mo>‡</mo></math>", Some "\ddagger");
("pair_405", "<math xmlns=""http://www.w3.org/1998/Math/MathML""><mi>‡</mi></math>", Some "\ddagger");
("pair_406", "<math xmlns=""http://www.w3.org/1998/Math/MathML""><mo>・</mo></math>", Some "\cdot");
("pair_407", "<math xmlns=""http://www.w3.org/1998/Math/MathML""><mi>・</mi></math>", Some "\cdot");
("pair_408", "<math xmlns=""http://www.w3.org/1998/Math/MathML""><mn>⁵</mn></math>", Some "^{5}");
("pair_409", "<math xmlns=""http://www.w3.org/1998/Math/MathML""><mo>▱</mo></math>", Some "\square");
("pair_410", "<math xmlns=""http://www.w3.org/1998/Math/MathML""><mi>▱</mi></math>", Some "\square");
("pair_411", "<math xmlns=""http://www.w3.org/1998/Math/MathML""><mo>∆</mo></math>", Some "\Delta");
("pair_412", "<math xmlns=""http://www.w3.org/1998/Math/MathML""><mi>∆</mi></math>", Some "\Delta");
("pair_413", "<math xmlns=""http://www.w3.org/1998/Math/MathML""><mi>ἱ</mi></math>", Some "i");
("pair_414", "<math xmlns=""http://www.w3.org/1998/Math/MathML""><mo>∡</mo></math>", Some "\measuredangle");
("pair_415", "<math xmlns=""http://www.w3.org/1998/Math/MathML""><mi>ϒ</mi></math>", Some "\Upsilon");
("pair_416", "<math xmlns=""http://www.w3.org/1998/Math/MathML""><mo>↓</mo></math>", Some "\downarrow");
("pair_417", "<math xmlns=""http://www.w3.org/1998/Math/MathML""><mi>↓</mi></math>", Some "\downarrow");
("pair_418", "<math xmlns=""http://www.w3.org/1998/Math/MathML""><mo>↑</mo></math>", Some "\uparrow");
("pair_419", "<math xmlns=""http://www.w3.org/1998/Math/MathML""><mi>↑</mi></math>", Some "\uparrow");
("pair_420", "<math xmlns=""http://www.w3.org/1998/Math/MathML""><mo>»</mo></math>", Some "\gg");
("pair_421", "<math xmlns=""http://www.w3.org/1998/Math/MathML""><mo>⊤</mo></math>", Some "\top");
("pair_422", "<math xmlns=""http://www.w3.org/1998/Math/MathML""><mi>⊤</mi></math>", Some "\top");
("pair_423", "<math xmlns=""http://www.w3.org/1998/Math/MathML""><mo>⧸</mo></math>", Some "/");
("pair_424", "<math xmlns=""http://www.w3.org/1998/Math/MathML""><mi>⧸</mi></math>", Some "/");
("pair_425", "<math xmlns=""http://www.w3.org/1998/Math/MathML""><mi>𝛿</mi></math>", Some "\delta");
("pair_426", "<math xmlns=""http://www.w3.org/1998/Math/MathML""><mo>˳</mo></math>", Some "\cdot");
("pair_427", "<math xmlns=""http://www.w3.org/1998/Math/MathML""><mi>˳</mi></math>", Some "\cdot");
("pair_428", "<math xmlns=""http://www.w3.org/1998/Math/MathML""><mn>ₙ</mn></math>", Some "_{n}");
("pair_429", "<math xmlns=""http://www.w3.org/1998/Math/MathML""><mi>ₙ</mi></math>", Some "_{n}");
("pair_430", "<math xmlns=""http://www.w3.org/1998/Math/MathML""><mo>ₙ</mo></math>", Some "_{n}");
("pair_431", "<math xmlns=""http://www.w3.org/1998/Math/MathML""><mi>β</mi></math>", Some "\beta");
("pair_432", "<math xmlns=""http://www.w3.org/1998/Math/MathML""><mo>β</mo></math>", Some "\beta");
("pair_433", "<math xmlns=""http://www.w3.org/1998/Math/MathML""><mo>։</mo></math>", Some ":");
("pair_434", "<math xmlns=""http://www.w3.org/1998/Math/MathML""><mi>։</mi></math>", Some ":");
("pair_435", "<math xmlns=""http://www.w3.org/1998/Math/MathML""><mo>⦪</mo></math>", Some "\measuredangle");
("pair_436", "<math xmlns=""http://www.w3.org/1998/Math/MathML""><mi>⦪</mi></math>", Some "\measuredangle");
("pair_437", "<math xmlns=""http://www.w3.org/1998/Math/MathML""><mo>⦩</mo></math>", Some "\measuredangle");
("pair_438", "<math xmlns=""http://www.w3.org/1998/Math/MathML""><mi>⦩</mi></math>", Some "\measuredangle");
("pair_439", "<math xmlns=""http://www.w3.org/1998/Math/MathML""><mo>⦫</mo></math>", Some "\measuredangle");
("pair_440", "<math xmlns=""http://www.w3.org/1998/Math/MathML""><mi>⦫</mi></math>", Some "\measuredangle");
("pair_441", "<math xmlns=""http://www.w3.org/1998/Math/MathML""><mo>⦁</mo></math>", Some "\cdot");
("pair_442", "<math xmlns=""http://www.w3.org/1998/Math/MathML""><mi>⦁</mi></math>", Some "\cdot");
("pair_443", "<math xmlns=""http://www.w3.org/1998/Math/MathML""><mi>ѳ</mi></math>", Some "\theta");
("pair_444", "<math xmlns=""http://www.w3.org/1998/Math/MathML""><mo>ѳ</mo></math>", Some "\theta");
("pair_445", "<math xmlns=""http://www.w3.org/1998/Math/MathML""><mo>⦢</mo></math>", Some "\measuredangle");
("pair_446", "<math xmlns=""http://www.w3.org/1998/Math/MathML""><mi>⦢</mi></math>", Some "\measuredangle");
("pair_447", "<math xmlns=""http://www.w3.org/1998/Math/MathML""><mo>¸</mo></math>", Some ",");
("pair_448", "<math xmlns=""http://www.w3.org/1998/Math/MathML""><mi>¸</mi></math>", Some ",");
("pair_449", "<math xmlns=""http://www.w3.org/1998/Math/MathML""><mi>𝜙</mi></math>", Some "\phi");
("pair_450", "<math xmlns=""http://www.w3.org/1998/Math/MathML""><mo>𝜙</mo></math>", Some "\phi");
("pair_451", "<math xmlns=""http://www.w3.org/1998/Math/MathML""><mi>П</mi></math>", Some "\prod");
("pair_452", "<math xmlns=""http://www.w3.org/1998/Math/MathML""><mo>П</mo></math>", Some "\prod");
("pair_453", "<math xmlns=""http://www.w3.org/1998/Math/MathML""><mi>α</mi></math>", Some "\alpha");
("pair_454", "<math xmlns=""http://www.w3.org/1998/Math/MathML""><mo>α</mo></math>", Some "\alpha");
("pair_455", "<math xmlns=""http://www.w3.org/1998/Math/MathML""><mn>₆</mn></math>", Some "_{6}");
("pair_456", "<math xmlns=""http://www.w3.org/1998/Math/MathML""><mi>₆</mi></math>", Some "_{6}");
("pair_457", "<math xmlns=""http://www.w3.org/1998/Math/MathML""><mo>₆</mo></math>", Some "_{6}");
("pair_458", "<math xmlns=""http://www.w3.org/1998/Math/MathML""><mi>о</mi></math>", Some "o");
("pair_459", "<math xmlns=""http://www.w3.org/1998/Math/MathML""><mo>о</mo></math>", Some "o");
("pair_460", "<math xmlns=""http://www.w3.org/1998/Math/MathML""><mo>≈</mo></math>", Some "\approx");
("pair_461", "<math xmlns=""http://www.w3.org/1998/Math/MathML""><mi>≈</mi></math>", Some "\approx");
("pair_462", "<math xmlns=""http://www.w3.org/1998/Math/MathML""><mo>≤</mo></math>", Some "\leq");
("pair_463", "<math xmlns=""http://www.w3.org/1998/Math/MathML""><mi>≤</mi></math>", Some "\leq");
("pair_464", "<math xmlns=""http://www.w3.org/1998/Math/MathML""><mi>ђ</mi></math>", Some "\hbar");
("pair_465", "<math xmlns=""http://www.w3.org/1998/Math/MathML""><mo>ђ</mo></math>", Some "\hbar");
("pair_466", "<math xmlns=""http://www.w3.org/1998/Math/MathML""><mi>Ʌ</mi></math>", Some "\Lambda");
("pair_467", "<math xmlns=""http://www.w3.org/1998/Math/MathML""><mo>Ʌ</mo></math>", Some "\Lambda");
("pair_468", "<math xmlns=""http://www.w3.org/1998/Math/MathML""><mo>土</mo></math>", Some "\pm");
("pair_469", "<math xmlns=""http://www.w3.org/1998/Math/MathML""><mi>土</mi></math>", Some "\pm");
("pair_470", "<math xmlns=""http://www.w3.org/1998/Math/MathML""><mo>⎼</mo></math>", Some "-");
("pair_471", "<math xmlns=""http://www.w3.org/1998/Math/MathML""><mi>⎼</mi></math>", Some "-");
("pair_472", "<math xmlns=""http://www.w3.org/1998/Math/MathML""><mo>十</mo></math>", Some "+");
("pair_473", "<math xmlns=""http://www.w3.org/1998/Math/MathML""><mi>十</mi></math>", Some "+");
("pair_474", "<math xmlns=""http://www.w3.org/1998/Math/MathML""><mi>γ</mi></math>", Some "\gamma");
("pair_475", "<math xmlns=""http://www.w3.org/1998/Math/MathML""><mo>γ</mo></math>", Some "\gamma");
("pair_476", "<math xmlns=""http://www.w3.org/1998/Math/MathML""><mo>≠</mo></math>", Some "\neq");
("pair_477", "<math xmlns=""http://www.w3.org/1998/Math/MathML""><mi>≠</mi></math>", Some "\neq");
("pair_478", "<math xmlns=""http://www.w3.org/1998/Math/MathML""><mo>←</mo></math>", Some "\leftarrow");
("pair_479", "<math xmlns=""http://www.w3.org/1998/Math/MathML""><mi>←</mi></math>", Some "\leftarrow");
("pair_480", "<math xmlns=""http://www.w3.org/1998/Math/MathML""><mo>।</mo></math>", Some "\mid");
("pair_481", "<math xmlns=""http://www.w3.org/1998/Math/MathML""><mi>।</mi></math>", Some "\mid");
("pair_482", "<math xmlns=""http://www.w3.org/1998/Math/MathML""><mo>€</mo></math>", Some "\euro");
("pair_483", "<math xmlns=""http://www.w3.org/1998/Math/MathML""><mi>€</mi></math>", Some "\euro");
("pair_484", "<math xmlns=""http://www.w3.org/1998/Math/MathML""><mo>˘</mo></math>", Some "");
("pair_485", "<math xmlns=""http://www.w3.org/1998/Math/MathML""><mi>˘</mi></math>", Some "");
("pair_486", "<math xmlns=""http://www.w3.org/1998/Math/MathML""><mi>ρ</mi></math>", Some "\rho");
("pair_487", "<math xmlns=""http://www.w3.org/1998/Math/MathML""><mo>ρ</mo></math>", Some "\rho");
("pair_488", "<math xmlns=""http://www.w3.org/1998/Math/MathML""><mi>ῡ</mi></math>", Some "\bar{u}");
("pair_489", "<math xmlns=""http://www.w3.org/1998/Math/MathML""><mo>ῡ</mo></math>", Some "\bar{u}");
("pair_490", "<math xmlns=""http://www.w3.org/1998/Math/MathML""><mo>∥</mo></math>", Some "\parallel");
("pair_491", "<math xmlns=""http://www.w3.org/1998/Math/MathML""><mi>∥</mi></math>", Some "\parallel");
("pair_492", "<math xmlns=""http://www.w3.org/1998/Math/MathML""><mo>↔</mo></math>", Some "\leftrightarrow");
("pair_493", "<math xmlns=""http://www.w3.org/1998/Math/MathML""><mi>↔</mi></math>", Some "\leftrightarrow");
("pair_494", "<math xmlns=""http://www.w3.org/1998/Math/MathML""><mo>√</mo></math>", Some "\sqrt{}");
("pair_495", "<math xmlns=""http://www.w3.org/1998/Math/MathML""><mi>√</mi></math>", Some "\sqrt{}");
("pair_496", "<math xmlns=""http://www.w3.org/1998/Math/MathML""><mi>φ</mi></math>", Some "\varphi");
("pair_497", "<math xmlns=""http://www.w3.org/1998/Math/MathML""><mo>φ</mo></math>", Some "\varphi");
("pair_498", "<math xmlns=""http://www.w3.org/1998/Math/MathML""><mi>ȼ</mi></math>", Some "c");
("pair_499", "<math xmlns=""http://www.w3.org/1998/Math/MathML""><mo>ȼ</mo></math>", Some "c");
("pair_500", "<math xmlns=""http://www.w3.org/1998/Math/MathML""><mi>𝞮</mi></math>", Some "\epsilon");
("pair_501", "<math xmlns=""http://www.w3.org/1998/Math/MathML""><mo>𝞮</mo></math>", Some "\epsilon");
("pair_502", "<math xmlns=""http://www.w3.org/1998/Math/MathML""><mi>Δ</mi></math>", Some "\Delta");
("pair_503", "<math xmlns=""http://www.w3.org/1998/Math/MathML""><mo>Δ</mo></math>", Some "\Delta");
("pair_504", "<math xmlns=""http://www.w3.org/1998/Math/MathML""><mo>·</mo></math>", Some "\cdot");
("pair_505", "<math xmlns=""http://www.w3.org/1998/Math/MathML""><mi>·</mi></math>", Some "\cdot");
("pair_506", "<math xmlns=""http://www.w3.org/1998/Math/MathML""><mo>∅</mo></math>", Some "\emptyset");
("pair_507", "<math xmlns=""http://www.w3.org/1998/Math/MathML""><mi>∅</mi></math>", Some "\emptyset");
("pair_508", "<math xmlns=""http://www.w3.org/1998/Math/MathML""><mo>⦬</mo></math>", Some "\measuredangle");
("pair_509", "<math xmlns=""http://www.w3.org/1998/Math/MathML""><mi>⦬</mi></math>", Some "\measuredangle");
("pair_510", "<math xmlns=""http://www.w3.org/1998/Math/MathML""><mo>⦮</mo></math>", Some "\measuredangle");
("pair_511", "<math xmlns=""http://www.w3.org/1998/Math/MathML""><mi>⦮</mi></math>", Some "\measuredangle");
("pair_512", "<math xmlns=""http://www.w3.org/1998/Math/MathML""><mo>⦭</mo></math>", Some "\measuredangle");
("pair_513", "<math xmlns=""http://www.w3.org/1998/Math/MathML""><mi>⦭</mi></math>", Some "\measuredangle");
("pair_514", "<math xmlns=""http://www.w3.org/1998/Math/MathML""><mo>«</mo></math>", Some "\ll");
("pair_515", "<math xmlns=""http://www.w3.org/1998/Math/MathML""><mi>«</mi></math>", Some "\ll");
("pair_516", "<math xmlns=""http://www.w3.org/1998/Math/MathML""><mn>₈</mn></math>", Some "_{8}");
("pair_517", "<math xmlns=""http://www.w3.org/1998/Math/MathML""><mi>₈</mi></math>", Some "_{8}");
("pair_518", "<math xmlns=""http://www.w3.org/1998/Math/MathML""><mo>₈</mo></math>", Some "_{8}");
("pair_519", "<math xmlns=""http://www.w3.org/1998/Math/MathML""><mi>Ȧ</mi></math>", Some "\dot{A}");
("pair_520", "<math xmlns=""http://www.w3.org/1998/Math/MathML""><mo>Ȧ</mo></math>", Some "\dot{A}");
("pair_521", "<math xmlns=""http://www.w3.org/1998/Math/MathML""><mi>λ</mi></math>", Some "\lambda");
("pair_522", "<math xmlns=""http://www.w3.org/1998/Math/MathML""><mo>λ</mo></math>", Some "\lambda");
("pair_523", "<math xmlns=""http://www.w3.org/1998/Math/MathML""><mi>Χ</mi></math>", Some "\mathsf{X}");
("pair_524", "<math xmlns=""http://www.w3.org/1998/Math/MathML""><mo>Χ</mo></math>", Some "\mathsf{X}")].

Example all_tests_pass : length tests = 640 /\ filter (fun t => negb (passes t)) tests = [].
Proof. vm_compute. repeat split. Qed.
