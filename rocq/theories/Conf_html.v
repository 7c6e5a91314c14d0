(** Generated by tools/gen_conf.py from /repo/creole/tests. Do not edit.
    Evaluation of the model on the expectations of the project's own unit tests. *)
From Coq Require Import String List NArith ZArith Bool.
From Verif Require Import ConfHtml.
Import ListNotations.
Open Scope N_scope.

(* test_cross_compare_all.py:31 test_bold_italics *)
Example conf_html_001 : chk (html2creole ue_default false
  (L "<p><strong>bold</strong> <i>italics</i><br />
<i>italics and <strong>bold</strong>.</i><br />
<strong>bold and <i>italics</i>.</strong></p>"))
  (L "**bold** //italics//
//italics and **bold**.//
**bold and //italics//.**")
  = true.
Proof. vm_compute. reflexivity. Qed.

(* test_cross_compare_all.py:43 test_bold_italics *)
Example conf_html_002 : chk (html2textile ue_default
  (L "<p><strong>bold</strong> <i>italics</i><br />

<i>italics and <strong>bold</strong>.</i><br />

<strong>bold and <i>italics</i>.</strong></p>"))
  (L "*bold* __italics__
__italics and *bold*.__
*bold and __italics__.*")
  = true.
Proof. vm_compute. reflexivity. Qed.

(* test_cross_compare_all.py:58 test_bold_italics *)
Example conf_html_003 : chk (html2rest ue_default
  (L "<p><strong>bold</strong> <em>italics</em></p>"))
  (L "**bold** *italics*")
  = true.
Proof. vm_compute. reflexivity. Qed.

(* test_cross_compare_all.py:68 test_bold_italics2 *)
Example conf_html_004 : chk (html2creole ue_default false
  (L "<p><strong><i>bold italics</i></strong><br />
<i><strong>bold italics</strong></i><br />
<i>This is <strong>also</strong> good.</i></p>"))
  (L "**//bold italics//**
//**bold italics**//
//This is **also** good.//")
  = true.
Proof. vm_compute. reflexivity. Qed.

(* test_cross_compare_all.py:80 test_bold_italics2 *)
Example conf_html_005 : chk (html2textile ue_default
  (L "<p><strong><i>bold italics</i></strong><br />

<i><strong>bold italics</strong></i><br />

<i>This is <strong>also</strong> good.</i></p>"))
  (L "*__bold italics__*
__*bold italics*__
__This is *also* good.__")
  = true.
Proof. vm_compute. reflexivity. Qed.

(* test_cross_compare_all.py:96 test_headlines1 *)
Example conf_html_006 : chk (html2creole ue_default false
  (L "<h1>Section Title 1</h1>

<h2>Section Title 2</h2>

<h3>Section Title 3</h3>

<h4>Section Title 4</h4>

<h5>Section Title 5</h5>

<h6>Section Title 6</h6>"))
  (L "= Section Title 1

== Section Title 2

=== Section Title 3

==== Section Title 4

===== Section Title 5

====== Section Title 6")
  = true.
Proof. vm_compute. reflexivity. Qed.

(* test_cross_compare_all.py:96 test_headlines1 *)
Example conf_html_007 : chk (html2textile ue_default
  (L "<h1>Section Title 1</h1>

<h2>Section Title 2</h2>

<h3>Section Title 3</h3>

<h4>Section Title 4</h4>

<h5>Section Title 5</h5>

<h6>Section Title 6</h6>"))
  (L "h1. Section Title 1

h2. Section Title 2

h3. Section Title 3

h4. Section Title 4

h5. Section Title 5

h6. Section Title 6")
  = true.
Proof. vm_compute. reflexivity. Qed.

(* test_cross_compare_all.py:137 test_headlines1 *)
Example conf_html_008 : chk (html2rest ue_default
  (L "<h1>Section Title 1</h1>
<h2>Section Title 2</h2>
<h3>Section Title 3</h3>
<h4>Section Title 4</h4>
<h5>Section Title 5</h5>
<h6>Section Title 6</h6>"))
  (L "===============
Section Title 1
===============

---------------
Section Title 2
---------------

Section Title 3
===============

Section Title 4
---------------

Section Title 5
```````````````

Section Title 6
'''''''''''''''")
  = true.
Proof. vm_compute. reflexivity. Qed.

(* test_cross_compare_all.py:177 test_horizontal_rule *)
Example conf_html_009 : chk (html2creole ue_default false
  (L "<p>Text before horizontal rule.</p>

<hr />

<p>Text after the line.</p>"))
  (L "Text before horizontal rule.

----

Text after the line.")
  = true.
Proof. vm_compute. reflexivity. Qed.

(* test_cross_compare_all.py:188 test_horizontal_rule *)
Example conf_html_010 : chk (html2rest ue_default
  (L "<p>Text before horizontal rule.</p>
<hr />
<p>Text after the line.</p>"))
  (L "Text before horizontal rule.

----

Text after the line.")
  = true.
Proof. vm_compute. reflexivity. Qed.

(* test_cross_compare_all.py:198 test_link *)
Example conf_html_011 : chk (html2creole ue_default false
  (L "<p>X <a href=""http://domain.tld"">link B</a> test.</p>"))
  (L "X [[http://domain.tld|link B]] test.")
  = true.
Proof. vm_compute. reflexivity. Qed.

(* test_cross_compare_all.py:198 test_link *)
Example conf_html_012 : chk (html2textile ue_default
  (L "<p>X <a href=""http://domain.tld"">link B</a> test.</p>"))
  (L "X ""link B"":http://domain.tld test.")
  = true.
Proof. vm_compute. reflexivity. Qed.

(* test_cross_compare_all.py:198 test_link *)
Example conf_html_013 : chk (html2rest ue_default
  (L "<p>X <a href=""http://domain.tld"">link B</a> test.</p>"))
  (L "X `link B <http://domain.tld>`_ test.")
  = true.
Proof. vm_compute. reflexivity. Qed.

(* test_cross_compare_all.py:214 test_link_without_title *)
Example conf_html_014 : chk (html2creole ue_default false
  (L "<p><a href=""http://www.pylucid.org"">http://www.pylucid.org</a></p>"))
  (L "[[http://www.pylucid.org]]")
  = true.
Proof. vm_compute. reflexivity. Qed.

(* test_cross_compare_all.py:214 test_link_without_title *)
Example conf_html_015 : chk (html2textile ue_default
  (L "<p><a href=""http://www.pylucid.org"">http://www.pylucid.org</a></p>"))
  (L """http://www.pylucid.org"":http://www.pylucid.org")
  = true.
Proof. vm_compute. reflexivity. Qed.

(* test_cross_compare_all.py:214 test_link_without_title *)
Example conf_html_016 : chk (html2rest ue_default
  (L "<p><a href=""http://www.pylucid.org"">http://www.pylucid.org</a></p>"))
  (L "`http://www.pylucid.org <http://www.pylucid.org>`_")
  = true.
Proof. vm_compute. reflexivity. Qed.

(* test_cross_compare_all.py:230 test_link_with_unknown_protocol *)
Example conf_html_017 : chk (html2creole ue_default false
  (L "<p>X <a href=""foo://bar"">unknown protocol</a> Y</p>"))
  (L "X [[foo://bar|unknown protocol]] Y")
  = true.
Proof. vm_compute. reflexivity. Qed.

(* test_cross_compare_all.py:230 test_link_with_unknown_protocol *)
Example conf_html_018 : chk (html2rest ue_default
  (L "<p>X <a href=""foo://bar"">unknown protocol</a> Y</p>"))
  (L "X `unknown protocol <foo://bar>`_ Y")
  = true.
Proof. vm_compute. reflexivity. Qed.

(* test_cross_compare_all.py:247 test_link_with_at_sign *)
Example conf_html_019 : chk (html2creole ue_default false
  (L "<p>X <a href=""http://de.wikipedia.org/wiki/Creole_(Markup)"">Creole@wikipedia</a></p>"))
  (L "X [[http://de.wikipedia.org/wiki/Creole_(Markup)|Creole@wikipedia]]")
  = true.
Proof. vm_compute. reflexivity. Qed.

(* test_cross_compare_all.py:255 test_link_with_at_sign *)
Example conf_html_020 : chk (html2rest ue_default
  (L "<p>X <a href=""http://de.wikipedia.org/wiki/Creole_(Markup)"">Creole&#64;wikipedia</a></p>"))
  (L "X `Creole@wikipedia <http://de.wikipedia.org/wiki/Creole_(Markup)>`_")
  = true.
Proof. vm_compute. reflexivity. Qed.

(* test_cross_compare_all.py:263 test_link_with_at_sign *)
Example conf_html_021 : chk (html2textile ue_default
  (L "<p>X <a href=""http://domain.tld"">foo@domain</a></p>"))
  (L "X ""foo@domain"":http://domain.tld")
  = true.
Proof. vm_compute. reflexivity. Qed.

(* test_cross_compare_all.py:273 test_image *)
Example conf_html_022 : chk (html2creole ue_default false
  (L "<p>a <img src=""/image.jpg"" title=""JPG pictures"" alt=""JPG pictures"" /> and<br />
a <img src=""/image.jpeg"" title=""JPEG pictures"" alt=""JPEG pictures"" /> and<br />
a <img src=""/image.gif"" title=""GIF pictures"" alt=""GIF pictures"" /> and<br />
a <img src=""/image.png"" title=""PNG pictures"" alt=""PNG pictures"" /> !<br />
<img src=""/path1/path2/image"" title=""Image without files ext?"" alt=""Image without files ext?"" /></p>"))
  (L "a {{/image.jpg|JPG pictures}} and
a {{/image.jpeg|JPEG pictures}} and
a {{/image.gif|GIF pictures}} and
a {{/image.png|PNG pictures}} !
{{/path1/path2/image|Image without files ext?}}")
  = true.
Proof. vm_compute. reflexivity. Qed.

(* test_cross_compare_all.py:289 test_image *)
Example conf_html_023 : chk (html2textile ue_default
  (L "<p>a <img alt=""JPG pictures"" src=""/image.jpg"" title=""JPG pictures"" /> and<br />

a <img alt=""JPEG pictures"" src=""/image.jpeg"" title=""JPEG pictures"" /> and<br />

a <img alt=""GIF pictures"" src=""/image.gif"" title=""GIF pictures"" /> and<br />

a <img alt=""PNG pictures"" src=""/image.png"" title=""PNG pictures"" /> !<br />

<img alt=""Image without files ext?"" src=""/path1/path2/image"" title=""Image without files ext?"" /></p>"))
  (L "a !/image.jpg(JPG pictures)! and
a !/image.jpeg(JPEG pictures)! and
a !/image.gif(GIF pictures)! and
a !/image.png(PNG pictures)! !
!/path1/path2/image(Image without files ext?)!")
  = true.
Proof. vm_compute. reflexivity. Qed.

(* test_cross_compare_all.py:309 test_image *)
Example conf_html_024 : chk (html2rest ue_default
  (L "<p>1 <img alt=""JPG pictures"" src=""/image.jpg"" /> one</p>
<p>2 <img alt=""JPEG pictures"" src=""/image.jpeg"" /> two</p>
<p>3 <img alt=""GIF pictures"" src=""/image.gif"" /> tree</p>
<p>4 <img alt=""PNG pictures"" src=""/image.png"" /> four</p>
<p>5 <img alt=""Image without files ext?"" src=""/path1/path2/image"" /> five</p>"))
  (L "1 |JPG pictures| one

.. |JPG pictures| image:: /image.jpg

2 |JPEG pictures| two

.. |JPEG pictures| image:: /image.jpeg

3 |GIF pictures| tree

.. |GIF pictures| image:: /image.gif

4 |PNG pictures| four

.. |PNG pictures| image:: /image.png

5 |Image without files ext?| five

.. |Image without files ext?| image:: /path1/path2/image")
  = true.
Proof. vm_compute. reflexivity. Qed.

(* test_cross_compare_all.py:342 test_link_image *)
Example conf_html_025 : chk (html2creole ue_default false
  (L "<p>Linked <a href=""http://example.com/""><img src=""myimage.jpg"" title=""example site"" alt=""example site"" /> image</a></p>"))
  (L "Linked [[http://example.com/|{{myimage.jpg|example site}} image]]")
  = true.
Proof. vm_compute. reflexivity. Qed.

(* test_cross_compare_all.py:350 test_link_image *)
Example conf_html_026 : chk (html2textile ue_default
  (L "<p>Linked <a href=""http://example.com/""><img alt=""example site"" src=""myimage.jpg"" title=""example site"" /> image</a></p>"))
  (L "Linked ""!myimage.jpg(example site)! image"":http://example.com/")
  = true.
Proof. vm_compute. reflexivity. Qed.

(* test_cross_compare_all.py:373 test_pre1 *)
Example conf_html_027 : chk (html2creole ue_default false
  (L "<pre>
* no list
</pre>"))
  (L "{{{
* no list
}}}")
  = true.
Proof. vm_compute. reflexivity. Qed.

(* test_cross_compare_all.py:373 test_pre1 *)
Example conf_html_028 : chk (html2textile ue_default
  (L "<pre>
* no list
</pre>"))
  (L "<pre>
* no list
</pre>")
  = true.
Proof. vm_compute. reflexivity. Qed.

(* test_cross_compare_all.py:389 test_pre1 *)
Example conf_html_029 : chk (html2rest ue_default
  (L "<p>Preformatting text:</p>
<pre>
Here some performatting with
no `link &lt;http://domain.tld&gt;`_ here.
text... end.
</pre>
<p>Under pre block</p>"))
  (L "Preformatting text:

::

    Here some performatting with
    no `link <http://domain.tld>`_ here.
    text... end.

Under pre block")
  = true.
Proof. vm_compute. reflexivity. Qed.

(* test_cross_compare_all.py:445 test_pre_contains_braces *)
Example conf_html_030 : chk (html2creole ue_default false
  (L "<pre>
# Closing braces in nowiki:
if (x != NULL) {
  for (i = 0) {
    if (x = 1) {
      x[i]--;
  }}}
</pre>"))
  (L "{{{
# Closing braces in nowiki:
if (x != NULL) {
  for (i = 0) {
    if (x = 1) {
      x[i]--;
  }}}
}}}")
  = true.
Proof. vm_compute. reflexivity. Qed.

(* test_cross_compare_all.py:445 test_pre_contains_braces *)
Example conf_html_031 : chk (html2textile ue_default
  (L "<pre>
# Closing braces in nowiki:
if (x != NULL) {
  for (i = 0) {
    if (x = 1) {
      x[i]--;
  }}}
</pre>"))
  (L "<pre>
# Closing braces in nowiki:
if (x != NULL) {
  for (i = 0) {
    if (x = 1) {
      x[i]--;
  }}}
</pre>")
  = true.
Proof. vm_compute. reflexivity. Qed.

(* test_cross_compare_all.py:445 test_pre_contains_braces *)
Example conf_html_032 : chk (html2rest ue_default
  (L "<pre>
# Closing braces in nowiki:
if (x != NULL) {
  for (i = 0) {
    if (x = 1) {
      x[i]--;
  }}}
</pre>"))
  (L "::

    # Closing braces in nowiki:
    if (x != NULL) {
      for (i = 0) {
        if (x = 1) {
          x[i]--;
      }}}")
  = true.
Proof. vm_compute. reflexivity. Qed.

(* test_cross_compare_all.py:489 test_list *)
Example conf_html_033 : chk (html2creole ue_default false
  (L "<ul>
  <li><strong>bold</strong> item</li>
  <li><i>italic</i> item</li>
</ul>
<ol>
  <li>item about a <a href=""/foo/bar"">certain_page</a></li>
</ol>"))
  (L "* **bold** item
* //italic// item

# item about a [[/foo/bar|certain_page]]")
  = true.
Proof. vm_compute. reflexivity. Qed.

(* test_cross_compare_all.py:489 test_list *)
Example conf_html_034 : chk (html2textile ue_default
  (L "<ul>
<li><strong>bold</strong> item</li>
<li><i>italic</i> item</li>
</ul>
<ol>
<li>item about a <a href=""/foo/bar"">certain_page</a></li>
</ol>"))
  (L "* *bold* item
* __italic__ item

# item about a ""certain_page"":/foo/bar")
  = true.
Proof. vm_compute. reflexivity. Qed.

(* test_cross_compare_all.py:515 test_simple_table *)
Example conf_html_035 : chk (html2creole ue_default false
  (L "<table>
<tr>
    <th>Headline 1</th>
    <th>Headline 2</th>
</tr>
<tr>
    <td>cell one</td>
    <td>cell two</td>
</tr>
</table>"))
  (L "|= Headline 1 |= Headline 2 |
| cell one    | cell two    |")
  = true.
Proof. vm_compute. reflexivity. Qed.

(* test_cross_compare_all.py:515 test_simple_table *)
Example conf_html_036 : chk (html2textile ue_default
  (L "<table>
<tr>
<th>Headline 1</th>
<th>Headline 2</th>
</tr>
<tr>
<td>cell one</td>
<td>cell two</td>
</tr>
</table>"))
  (L "|_. Headline 1|_. Headline 2|
|cell one|cell two|")
  = true.
Proof. vm_compute. reflexivity. Qed.

(* test_cross_compare_all.py:539 test_simple_table *)
Example conf_html_037 : chk (html2rest ue_default
  (L "<table>
<colgroup>
<col width=""50%"" />
<col width=""50%"" />
</colgroup>
<tr><th>Headline 1</th>
<th>Headline 2</th>
</tr>
<tr><td>cell one</td>
<td>cell two</td>
</tr>
</table>"))
  (L "+------------+------------+
| Headline 1 | Headline 2 |
+============+============+
| cell one   | cell two   |
+------------+------------+")
  = true.
Proof. vm_compute. reflexivity. Qed.

(* test_cross_compare_creole.py:26 test_typeface *)
Example conf_html_038 : chk (html2creole ue_default false
  (L "<p>basics:<br />
<strong><i>bold italics</i></strong><br />
<i><strong>bold italics</strong></i><br />
<i>This is <strong>also</strong> good.</i></p>

<p>Creole 1.0 optional:<br />
This is <tt>monospace</tt> text.<br />
This is <sup>superscripted</sup> text.<br />
This is <sub>subscripted</sub> text.<br />
This is <u>underlined</u> text.</p>

<p>own additions:<br />
This is <small>small</small> and this <del>strikeout</del> ;)</p>"))
  (L "basics:
**//bold italics//**
//**bold italics**//
//This is **also** good.//

Creole 1.0 optional:
This is ##monospace## text.
This is ^^superscripted^^ text.
This is ,,subscripted,, text.
This is __underlined__ text.

own additions:
This is --small-- and this ~~strikeout~~ ;)")
  = true.
Proof. vm_compute. reflexivity. Qed.

(* test_cross_compare_creole.py:64 test_cross_lines_html2creole *)
Example conf_html_039 : chk (html2creole ue_default false
  (L "<p>Bold and italics should <i>be<br />
able</i> to <strong>cross<br />
lines.</strong></p>"))
  (L "Bold and italics should //be
able// to **cross
lines.**")
  = true.
Proof. vm_compute. reflexivity. Qed.

(* test_cross_compare_creole.py:78 test_small *)
Example conf_html_040 : chk (html2creole ue_default false
  (L "<p>no -- small<br />
no // italics<br />
no ** bold<br />
no ## monospace<br />
no ^^ superscripted<br />
no ,, subscripted<br />
no __ underline</p>"))
  (L "no -- small
no // italics
no ** bold
no ## monospace
no ^^ superscripted
no ,, subscripted
no __ underline")
  = true.
Proof. vm_compute. reflexivity. Qed.

(* test_cross_compare_creole.py:101 test_link *)
Example conf_html_041 : chk (html2creole ue_default false
  (L "<p>this is <a href=""/a internal"">/a internal</a> link.<br />
1 <a href=""internal links"">link A</a> test.</p>"))
  (L "this is [[/a internal]] link.
1 [[internal links|link A]] test.")
  = true.
Proof. vm_compute. reflexivity. Qed.

(* test_cross_compare_creole.py:113 test_bolditalic_links *)
Example conf_html_042 : chk (html2creole ue_default false
  (L "<p><i><a href=""a internal"">a internal</a></i><br />
<strong><a href=""Shortcut2"">a page2</a></strong><br />
<i><strong><a href=""Shortcut3"">a page3</a></strong></i></p>"))
  (L "//[[a internal]]//
**[[Shortcut2|a page2]]**
//**[[Shortcut3|a page3]]**//")
  = true.
Proof. vm_compute. reflexivity. Qed.

(* test_cross_compare_creole.py:127 test_pre_contains_braces *)
Example conf_html_043 : chk (html2creole ue_default false
  (L "<h3>Closing braces in nowiki:</h3>

<pre>
if (x != NULL) {
  for (i = 0; i &lt; size; i++) {
    if (x[i] &gt; 0) {
      x[i]--;
  }}}
</pre>"))
  (L "=== Closing braces in nowiki:

{{{
if (x != NULL) {
  for (i = 0; i < size; i++) {
    if (x[i] > 0) {
      x[i]--;
  }}}
}}}")
  = true.
Proof. vm_compute. reflexivity. Qed.

(* test_cross_compare_creole.py:152 test_pre2 *)
Example conf_html_044 : chk (html2creole ue_default false
  (L "<p>111</p>

<pre>
//This// does **not** get [[formatted]]
</pre>
<p>222</p>

<p>one</p>

<pre>
foo

bar
</pre>
<p>two</p>"))
  (L "111

{{{
//This// does **not** get [[formatted]]
}}}
222

one

{{{
foo

bar
}}}
two")
  = true.
Proof. vm_compute. reflexivity. Qed.

(* test_cross_compare_creole.py:187 test_pre *)
Example conf_html_045 : chk (html2creole ue_default false
  (L "<p>start</p>

<pre>
* no list
&lt;html escaped&gt;
</pre>
<p>end</p>"))
  (L "start

{{{
* no list
<html escaped>
}}}
end")
  = true.
Proof. vm_compute. reflexivity. Qed.

(* test_cross_compare_creole.py:206 test_tt *)
Example conf_html_046 : chk (html2creole ue_default false
  (L "<p>this is <tt><strong>strong</strong> Teletyper</tt> ;)</p>"))
  (L "this is ##**strong** Teletyper## ;)")
  = true.
Proof. vm_compute. reflexivity. Qed.

(* test_cross_compare_creole.py:213 test_no_inline_headline *)
Example conf_html_047 : chk (html2creole ue_default false
  (L "<h1>Headline</h1>

<h3>**not** //parsed//</h3>

<p>No == headline == or?</p>"))
  (L "= Headline

=== **not** //parsed//

No == headline == or?")
  = true.
Proof. vm_compute. reflexivity. Qed.

(* test_cross_compare_creole.py:231 test_horizontal_rule *)
Example conf_html_048 : chk (html2creole ue_default false
  (L "<p>one</p>

<hr />

<p>two</p>"))
  (L "one

----

two")
  = true.
Proof. vm_compute. reflexivity. Qed.

(* test_cross_compare_creole.py:246 test_bullet_list *)
Example conf_html_049 : chk (html2creole ue_default false
  (L "<ul>
    <li>Item 1
    <ul>
        <li>Item 1.1</li>
        <li>a <strong>bold</strong> Item 1.2</li>
    </ul></li>
    <li>Item 2
    <ul>
        <li>Item 2.1
        <ul>
            <li><a href=""a link Item 3.1"">a link Item 3.1</a></li>
            <li>Force<br />
            linebreak 3.2</li>
            <li>item 3.3</li>
            <li>item 3.4</li>
        </ul></li>
    </ul></li>
</ul>
<p>up to five levels</p>

<ul>
    <li>1
    <ul>
        <li>2
        <ul>
            <li>3
            <ul>
                <li>4
                <ul>
                    <li>5</li>
                </ul></li>
            </ul></li>
        </ul></li>
    </ul></li>
</ul>"))
  (L "* Item 1
** Item 1.1
** a **bold** Item 1.2
* Item 2
** Item 2.1
*** [[a link Item 3.1]]
*** Force\\linebreak 3.2
*** item 3.3
*** item 3.4

up to five levels

* 1
** 2
*** 3
**** 4
***** 5")
  = true.
Proof. vm_compute. reflexivity. Qed.

(* test_cross_compare_creole.py:303 test_number_list *)
Example conf_html_050 : chk (html2creole ue_default false
  (L "<ol>
    <li>Item 1
    <ol>
        <li>Item 1.1</li>
        <li>a <strong>bold</strong> Item 1.2</li>
    </ol></li>
    <li>Item 2
    <ol>
        <li>Item 2.1
        <ol>
            <li><a href=""a link Item 3.1"">a link Item 3.1</a></li>
            <li>Force<br />
            linebreak 3.2</li>
            <li>item 3.3</li>
            <li>item 3.4</li>
        </ol></li>
    </ol></li>
</ol>
<p>up to five levels</p>

<ol>
    <li>1
    <ol>
        <li>2
        <ol>
            <li>3
            <ol>
                <li>4
                <ol>
                    <li>5</li>
                </ol></li>
            </ol></li>
        </ol></li>
    </ol></li>
</ol>"))
  (L "# Item 1
## Item 1.1
## a **bold** Item 1.2
# Item 2
## Item 2.1
### [[a link Item 3.1]]
### Force\\linebreak 3.2
### item 3.3
### item 3.4

up to five levels

# 1
## 2
### 3
#### 4
##### 5")
  = true.
Proof. vm_compute. reflexivity. Qed.

(* test_cross_compare_creole.py:362 test_big_table *)
Example conf_html_051 : chk (html2creole ue_default false
  (L "<p>A Table...</p>

<table>
<tr>
    <th>Headline</th>
    <th>a other<br />
        headline</th>
    <th>the <strong>big end</strong></th>
</tr>
<tr>
    <td>a cell</td>
    <td>a <strong>big</strong> cell</td>
    <td><strong><i>bold italics</i></strong></td>
</tr>
<tr>
    <td>next<br />
        line</td>
    <td>No == headline == or?</td>
    <td></td>
</tr>
<tr>
    <td>link test:</td>
    <td>a <a href=""/url/"">link</a> in</td>
    <td>a cell.</td>
</tr>
<tr>
    <td></td>
    <td></td>
    <td>empty cells</td>
</tr>
</table>
<p>...end</p>"))
  (L "A Table...

|= Headline  |= a other\\headline    |= the **big end**     |
| a cell     | a **big** cell        | **//bold italics//** |
| next\\line | No == headline == or? |                      |
| link test: | a [[/url/|link]] in   | a cell.              |
|            |                       | empty cells          |
...end")
  = true.
Proof. vm_compute. reflexivity. Qed.

(* test_cross_compare_creole.py:414 test_html_macro_unknown_nodes *)
Example conf_html_052 : chk (html2creole ue_html_macro false
  (L "<p>111 <x>foo</x> 222<br />
333<x foo1=""bar1"">foobar</x>444</p>

<p>555<x />666</p>"))
  (L "111 <<html>><x><</html>>foo<<html>></x><</html>> 222
333<<html>><x foo1=""bar1""><</html>>foobar<<html>></x><</html>>444

555<<html>><x /><</html>>666")
  = true.
Proof. vm_compute. reflexivity. Qed.

(* test_cross_compare_creole.py:432 test_entities *)
Example conf_html_053 : chk (html2creole ue_default false
  (L "<p>less-than sign: &lt;<br />
greater-than sign: &gt;</p>"))
  (L "less-than sign: <
greater-than sign: >")
  = true.
Proof. vm_compute. reflexivity. Qed.

(* test_cross_compare_markdown.py:22 test_headline *)
Example conf_html_054 : chk (html2markdown ue_default
  (L "<h1>Headline</h1>
<p>Text under Headline</p>
<h2>Sub-Headline</h2>
<p>Text under Sub-Headline</p>"))
  (L "# Headline

Text under Headline

## Sub-Headline

Text under Sub-Headline")
  = true.
Proof. vm_compute. reflexivity. Qed.

(* test_cross_compare_markdown.py:46 test_links *)
Example conf_html_055 : chk (html2markdown ue_default
  (L "<p><a href=""https//test.internal/foo/bar"">This is a Link</a></p>"))
  (L "[This is a Link](https//test.internal/foo/bar)")
  = true.
Proof. vm_compute. reflexivity. Qed.

(* test_cross_compare_markdown.py:50 test_links *)
Example conf_html_056 : chk (html2markdown ue_default
  (L "<p><a href=""https//test.internal/"" title=""Title"">A Link</a></p>"))
  (L "[A Link](https//test.internal/ ""Title"")")
  = true.
Proof. vm_compute. reflexivity. Qed.

(* test_cross_compare_markdown.py:56 test_images *)
Example conf_html_057 : chk (html2markdown ue_default
  (L "<p><img alt=""Alt text"" src=""/path/to/img.jpg"" /></p>"))
  (L "![Alt text](/path/to/img.jpg)")
  = true.
Proof. vm_compute. reflexivity. Qed.

(* test_cross_compare_markdown.py:60 test_images *)
Example conf_html_058 : chk (html2markdown ue_default
  (L "<p><img alt=""Alt text"" src=""/path/to/img.jpg"" title=""Title"" /></p>"))
  (L "![Alt text](/path/to/img.jpg ""Title"")")
  = true.
Proof. vm_compute. reflexivity. Qed.

(* test_cross_compare_markdown.py:66 test_image_links *)
Example conf_html_059 : chk (html2markdown ue_default
  (L "<p><a href=""/uri""><img alt=""image"" src=""image.jpg"" /></a></p>"))
  (L "[![image](image.jpg)](/uri)")
  = true.
Proof. vm_compute. reflexivity. Qed.

(* test_cross_compare_markdown.py:70 test_image_links *)
Example conf_html_060 : chk (html2markdown ue_default
  (L "<p><a href=""/uri"" title=""Link Title""><img alt=""image"" src=""image.jpg"" title=""Image Title"" /></a></p>"))
  (L "[![image](image.jpg ""Image Title"")](/uri ""Link Title"")")
  = true.
Proof. vm_compute. reflexivity. Qed.

(* test_cross_compare_markdown.py:80 test_hr *)
Example conf_html_061 : chk (html2markdown ue_default
  (L "<hr />"))
  (L "----")
  = true.
Proof. vm_compute. reflexivity. Qed.

(* test_cross_compare_markdown.py:84 test_hr *)
Example conf_html_062 : chk (html2markdown ue_default
  (L "<p>before</p>
<hr />
<p>after</p>"))
  (L "before

----

after")
  = true.
Proof. vm_compute. reflexivity. Qed.

(* test_cross_compare_markdown.py:105 test_typeface_basic *)
Example conf_html_063 : chk (html2markdown ue_default
  (L "<p><em>emphasis</em></p>"))
  (L "_emphasis_")
  = true.
Proof. vm_compute. reflexivity. Qed.

(* test_cross_compare_markdown.py:109 test_typeface_basic *)
Example conf_html_064 : chk (html2markdown ue_default
  (L "<p><strong>double asterisks</strong></p>"))
  (L "**double asterisks**")
  = true.
Proof. vm_compute. reflexivity. Qed.

(* test_cross_compare_markdown.py:113 test_typeface_basic *)
Example conf_html_065 : chk (html2markdown ue_default
  (L "<p>This is <strong>markdown <em>markup</em></strong>!</p>"))
  (L "This is **markdown _markup_**!")
  = true.
Proof. vm_compute. reflexivity. Qed.

(* test_cross_compare_markdown.py:119 test_inline_code *)
Example conf_html_066 : chk (html2markdown ue_default
  (L "<p>Use the <code>print()</code> function.</p>"))
  (L "Use the `print()` function.")
  = true.
Proof. vm_compute. reflexivity. Qed.

(* test_cross_compare_markdown.py:124 test_inline_code *)
Example conf_html_067 : chk (html2markdown ue_default
  (L "<p>backtick in: <code>print(""`"")</code> function.</p>"))
  (L "backtick in: ``print(""`"")`` function.")
  = true.
Proof. vm_compute. reflexivity. Qed.

(* test_cross_compare_markdown.py:131 test_lists *)
Example conf_html_068 : chk (html2markdown ue_default
  (L "<ul>
<li>apple</li>
<li>banana</li>
</ul>"))
  (L "* apple
* banana")
  = true.
Proof. vm_compute. reflexivity. Qed.

(* test_cross_compare_markdown.py:147 test_lists *)
Example conf_html_069 : chk (html2markdown ue_default
  (L "<ol>
<li>apple</li>
<li>banana</li>
</ol>"))
  (L "1. apple
1. banana")
  = true.
Proof. vm_compute. reflexivity. Qed.

(* test_cross_compare_rest.py:21 test_entities *)
Example conf_html_070 : chk (html2rest ue_default
  (L "<p>less-than sign: &lt;</p>
<p>greater-than sign: &gt;</p>"))
  (L "less-than sign: <

greater-than sign: >")
  = true.
Proof. vm_compute. reflexivity. Qed.

(* test_cross_compare_rest.py:35 test_bullet_lists_basic *)
Example conf_html_071 : chk (html2rest ue_default
  (L "<ul>
<li>item 1</li>
<li>item 2</li>
<li>item 3</li>
</ul>"))
  (L "* item 1

* item 2

* item 3")
  = true.
Proof. vm_compute. reflexivity. Qed.

(* test_cross_compare_rest.py:54 test_numbered_lists *)
Example conf_html_072 : chk (html2rest ue_default
  (L "<ol>
<li><p>item 1</p>
</li>
<li><p>item 2</p>
<ol>
<li>item 2.1</li>
<li>a <a href=""/url/"">link in</a> list item 2.2</li>
</ol>
</li>
<li><p>item 3</p>
</li>
</ol>"))
  (L "#. item 1

#. item 2

    #. item 2.1

    #. a `link in </url/>`_ list item 2.2

#. item 3")
  = true.
Proof. vm_compute. reflexivity. Qed.

(* test_cross_compare_rest.py:84 test_bullet_lists_nested *)
Example conf_html_073 : chk (html2rest ue_default
  (L "<p>A nested bullet lists:</p>
<ul>
<li><p>item 1</p>
<ul>
<li><p>A <strong>bold subitem 1.1</strong> here.</p>
<ul>
<li>subsubitem 1.1.1</li>
<li>subsubitem 1.1.2 with inline <img alt=""substitution text"" src=""/url/to/image.png"" /> image.</li>
</ul>
</li>
<li><p>subitem 1.2</p>
</li>
</ul>
</li>
<li><p>item 2</p>
<ul>
<li>subitem 2.1</li>
<li><em>bold 2.2</em></li>
</ul>
</li>
</ul>
<p>Text under list.</p>"))
  (L "A nested bullet lists:

* item 1

    * A **bold subitem 1.1** here.

        * subsubitem 1.1.1

        * subsubitem 1.1.2 with inline |substitution text| image.

    * subitem 1.2

* item 2

    * subitem 2.1

    * *bold 2.2*

.. |substitution text| image:: /url/to/image.png

Text under list.")
  = true.
Proof. vm_compute. reflexivity. Qed.

(* test_cross_compare_rest.py:139 test_typeface_basic *)
Example conf_html_074 : chk (html2rest ue_default
  (L "<p><em>emphasis</em> <strong>strong</strong></p>"))
  (L "*emphasis* **strong**")
  = true.
Proof. vm_compute. reflexivity. Qed.

(* test_cross_compare_rest.py:149 test_substitution_image_with_alt *)
Example conf_html_075 : chk (html2rest ue_default
  (L "<p>A inline <img alt=""substitution text"" src=""/url/to/image.png"" /> image.</p>
<p>...and some text below.</p>"))
  (L "A inline |substitution text| image.

.. |substitution text| image:: /url/to/image.png

...and some text below.")
  = true.
Proof. vm_compute. reflexivity. Qed.

(* test_cross_compare_rest.py:164 test_table *)
Example conf_html_076 : chk (html2rest ue_default
  (L "<p>before table.</p>
<table>
<colgroup>
<col width=""100%"" />
</colgroup>
<tr><td>table item</td>
</tr>
</table>
<p>After table.</p>"))
  (L "before table.

+------------+
| table item |
+------------+

After table.")
  = true.
Proof. vm_compute. reflexivity. Qed.

(* test_cross_compare_rest.py:188 test_link_in_table1 *)
Example conf_html_077 : chk (html2rest ue_default
  (L "<table>
<colgroup>
<col width=""100%"" />
</colgroup>
<tr><td><a href=""foo/bar"">table item</a></td>
</tr>
</table>"))
  (L "+---------------+
| `table item`_ |
+---------------+

.. _table item: foo/bar")
  = true.
Proof. vm_compute. reflexivity. Qed.

(* test_cross_compare_rest.py:208 test_link_in_table2 *)
Example conf_html_078 : chk (html2rest ue_default
  (L "<table>
<colgroup>
<col width=""100%"" />
</colgroup>
<tr><td>foo <a href=""foo/bar"">table item</a> bar</td>
</tr>
</table>"))
  (L "+-----------------------+
| foo `table item`_ bar |
+-----------------------+

.. _table item: foo/bar")
  = true.
Proof. vm_compute. reflexivity. Qed.

(* test_cross_compare_rest.py:228 test_link_in_table3 *)
Example conf_html_079 : chk (html2rest ue_default
  (L "<table>
<colgroup>
<col width=""100%"" />
</colgroup>
<tr><td><ul>
<li>foo <a href=""foo/bar/1/"">table item 1</a> bar 1</li>
</ul>
</td>
</tr>
<tr><td><ul>
<li>foo <a href=""foo/bar/2/"">table item 2</a> bar 2</li>
</ul>
</td>
</tr>
</table>"))
  (L "+-----------------------------+
| * foo `table item 1`_ bar 1 |
+-----------------------------+
| * foo `table item 2`_ bar 2 |
+-----------------------------+

.. _table item 1: foo/bar/1/
.. _table item 2: foo/bar/2/")
  = true.
Proof. vm_compute. reflexivity. Qed.

(* test_cross_compare_rest.py:259 test_paragraph_bwlow_table_links *)
Example conf_html_080 : chk (html2rest ue_default
  (L "<table>
<colgroup>
<col width=""100%"" />
</colgroup>
<tr><td><a href=""foo/bar/1/"">table item 1</a></td>
</tr>
<tr><td><a href=""foo/bar/2/"">table item 2</a></td>
</tr>
</table>
<p>Text after table.</p>"))
  (L "+-----------------+
| `table item 1`_ |
+-----------------+
| `table item 2`_ |
+-----------------+

.. _table item 1: foo/bar/1/
.. _table item 2: foo/bar/2/

Text after table.")
  = true.
Proof. vm_compute. reflexivity. Qed.

(* test_cross_compare_rest.py:288 test_reuse_link_substitution1 *)
Example conf_html_081 : chk (html2rest ue_default
  (L "<table>
<colgroup>
<col width=""100%"" />
</colgroup>
<tr><td>this is <a href=""foo/bar/"">foo bar</a> first time.</td>
</tr>
<tr><td>and here <a href=""foo/bar/"">foo bar</a> again.</td>
</tr>
</table>
<p>Text after table.</p>"))
  (L "+--------------------------------+
| this is `foo bar`_ first time. |
+--------------------------------+
| and here `foo bar`_ again.     |
+--------------------------------+

.. _foo bar: foo/bar/

Text after table.")
  = true.
Proof. vm_compute. reflexivity. Qed.

(* test_cross_compare_rest.py:316 test_reuse_link_substitution2 *)
Example conf_html_082 : chk (html2rest ue_default
  (L "<table>
<colgroup>
<col width=""100%"" />
</colgroup>
<tr><td>this is <a href=""foo/bar/"">foo bar</a> first time.</td>
</tr>
</table>
<p>and here <a href=""foo/bar/"">foo bar</a> again, after table.</p>"))
  (L "+--------------------------------+
| this is `foo bar`_ first time. |
+--------------------------------+

.. _foo bar: foo/bar/

and here `foo bar`_ again, after table.")
  = true.
Proof. vm_compute. reflexivity. Qed.

(* test_cross_compare_rest.py:340 test_reuse_image_substitution *)
Example conf_html_083 : chk (html2rest ue_default
  (L "<table>
<colgroup>
<col width=""100%"" />
</colgroup>
<tr><td>first <img alt=""image"" src=""/picture.png"" /> here</td>
</tr>
<tr><td>second <img alt=""image"" src=""/picture.png"" /> there</td>
</tr>
</table>"))
  (L "+----------------------+
| first |image| here   |
+----------------------+
| second |image| there |
+----------------------+

.. |image| image:: /picture.png")
  = true.
Proof. vm_compute. reflexivity. Qed.

(* test_cross_compare_rest.py:365 test_duplicate_image_substitution *)
Example conf_html_084 : chk (html2rest ue_default
  (L "<table>
<colgroup>
<col width=""100%"" />
</colgroup>
<tr><td>a <img alt=""same"" src=""/image.png"" /> image here</td>
</tr>
<tr><td>a <a href=""/url/foo/"">same</a> link there</td>
</tr>
</table>
<p>again: the <img alt=""same"" src=""/image.png"" /> image and <a href=""/url/foo/"">same</a> link!</p>"))
  (L "+----------------------+
| a |same| image here  |
+----------------------+
| a `same`_ link there |
+----------------------+

.. |same| image:: /image.png
.. _same: /url/foo/

again: the |same| image and `same`_ link!")
  = true.
Proof. vm_compute. reflexivity. Qed.

(* test_cross_compare_textile.py:24 test_typeface_basic *)
Example conf_html_085 : chk (html2textile ue_default
  (L "<p><em>emphasis</em><br />

<strong>strong</strong><br />

<i>italic</i><br />

<b>bold</b><br />

<cite>citation</cite><br />

<del>deleted text</del><br />

<ins>inserted text</ins><br />

<sup>superscript</sup><br />

<sub>subscript</sub><br />

<span>span</span><br />

<code>code</code></p>"))
  (L "_emphasis_
*strong*
__italic__
**bold**
??citation??
-deleted text-
+inserted text+
^superscript^
~subscript~
%span%
@code@")
  = true.
Proof. vm_compute. reflexivity. Qed.

(* test_cross_compare_textile.py:64 test_escape_in_pre *)
Example conf_html_086 : chk (html2textile ue_default
  (L "<pre>
&lt;html escaped&gt;
</pre>"))
  (L "<pre>
<html escaped>
</pre>")
  = true.
Proof. vm_compute. reflexivity. Qed.

(* test_html2creole.py:43 test_not_used *)
Example conf_html_087 : chk (html2creole ue_default false
  (L "<p><b>Bold text</b><br />
<big>Big text</big><br />
<em>em tag</em><br />
<i>italic</i></p>"))
  (L "**Bold text**
**Big text**
//em tag//
//italic//")
  = true.
Proof. vm_compute. reflexivity. Qed.

(* test_html2creole.py:73 test_use_html_macro *)
Example conf_html_088 : chk (html2creole ue_html_macro false
  (L "<p>111 <unknown>foo</unknown> 222<br />
333<unknown foo1=""bar1"" foo2=""bar2"">foobar</unknown>444</p>

<p>555<unknown />666</p>"))
  (L "111 <<html>><unknown><</html>>foo<<html>></unknown><</html>> 222
333<<html>><unknown foo1=""bar1"" foo2=""bar2""><</html>>foobar<<html>></unknown><</html>>444

555<<html>><unknown /><</html>>666")
  = true.
Proof. vm_compute. reflexivity. Qed.

(* test_html2creole.py:92 test_escape_unknown_nodes *)
Example conf_html_089 : chk (html2creole ue_escape false
  (L "<p>111 <unknown>foo</unknown> 222<br />
333<unknown foo1=""bar1"" foo2=""bar2"">foobar</unknown>444</p>

<p>555<unknown />666</p>"))
  (L "111 &lt;unknown&gt;foo&lt;/unknown&gt; 222
333&lt;unknown foo1=""bar1"" foo2=""bar2""&gt;foobar&lt;/unknown&gt;444

555&lt;unknown /&gt;666")
  = true.
Proof. vm_compute. reflexivity. Qed.

(* test_html2creole.py:111 test_escape_unknown_nodes2 *)
Example conf_html_090 : chk (html2creole ue_escape false
  (L "<script>
var js_sha_link='<p>***</p>';
</script>"))
  (L "&lt;script&gt;var js_sha_link='<p>***</p>';&lt;/script&gt;")
  = true.
Proof. vm_compute. reflexivity. Qed.

(* test_html2creole.py:127 test_transparent_unknown_nodes *)
Example conf_html_091 : chk (html2creole ue_transparent false
  (L "<form class=""foo"" id=""bar""><label><em>baz</em></label>, <strong>quux</strong></form>"))
  (L "//baz//, **quux**")
  = true.
Proof. vm_compute. reflexivity. Qed.

(* test_html2creole.py:139 test_transparent_unknown_nodes2 *)
Example conf_html_092 : chk (html2creole ue_transparent false
  (L "<p>FOO <script>var a='<em>STRONG</em>';</script> BAR</p>"))
  (L "FOO var a='<em>STRONG</em>'; BAR")
  = true.
Proof. vm_compute. reflexivity. Qed.

(* test_html2creole.py:150 test_transparent_unknown_nodes_block_elements *)
Example conf_html_093 : chk (html2creole ue_transparent false
  (L "<div><em>baz</em>,</div> <fieldset><strong>quux</strong></fieldset>
<span>spam, </span><label>ham, </label>and eggs"))
  (L "//baz//,

**quux**

spam, ham, and eggs")
  = true.
Proof. vm_compute. reflexivity. Qed.

(* test_html2creole.py:173 test_entities *)
Example conf_html_094 : chk (html2creole ue_default false
  (L "<ul>
<li>less-than sign: &lt; &#60; &#x3C;</li>
<li>greater-than sign: &gt; &#62; &#x3E;</li>
<li>copyright sign: &#169; &#xA9;</li>
<li>box drawing: &#9580; &#x256C;</li>
<li>german umlauts: &auml; &ouml; &uuml;</li>
</ul>"))
  (L "* less-than sign: < < <
* greater-than sign: > > >
* copyright sign: " ++ [169] ++ L " " ++ [169] ++ L "
* box drawing: " ++ [9580] ++ L " " ++ [9580] ++ L "
* german umlauts: " ++ [228] ++ L " " ++ [246] ++ L " " ++ [252])
  = true.
Proof. vm_compute. reflexivity. Qed.

(* test_html2creole.py:191 test_html_entity_nbsp *)
Example conf_html_095 : chk (html2creole ue_default false
  (L "<p>a non braking space: [&nbsp;] !</p>"))
  (L "a non braking space: [ ] !")
  = true.
Proof. vm_compute. reflexivity. Qed.

(* test_html2creole.py:198 test_html_entity_in_pre *)
Example conf_html_096 : chk (html2creole ue_default false
  (L "<pre><code>&#x7B;% lucidTag RSS url=""http url"" %&#x7D;</code></pre>"))
  (L "{{{<code>{% lucidTag RSS url=""http url"" %}</code>}}}")
  = true.
Proof. vm_compute. reflexivity. Qed.

(* test_html2creole.py:209 test_unknown_entity *)
Example conf_html_097 : chk (html2creole ue_default false
  (L "<p>copy&paste</p>"))
  (L "copy&paste")
  = true.
Proof. vm_compute. reflexivity. Qed.

(* test_html2creole.py:214 test_unknown_entity *)
Example conf_html_098 : chk (html2creole ue_default false
  (L "<a href=""/url/"">Search & Destroy</a>"))
  (L "[[/url/|Search & Destroy]]")
  = true.
Proof. vm_compute. reflexivity. Qed.

(* test_html2creole.py:221 test_tbody_table *)
Example conf_html_099 : chk (html2creole ue_default false
  (L "<p>Ignore 'tbody' tag in tables:</p>
<table>
<tbody>
<tr>
    <th>Headline 1</th>
    <th>Headline 2</th>
</tr>
<tr>
    <td>cell one</td>
    <td>cell two</td>
</tr>
</tbody>
</table>
<p>end</p>"))
  (L "Ignore 'tbody' tag in tables:

|= Headline 1 |= Headline 2 |
| cell one    | cell two    |
end")
  = true.
Proof. vm_compute. reflexivity. Qed.

(* test_html2creole.py:246 test_p_table *)
Example conf_html_100 : chk (html2creole ue_default false
  (L "<table>
<tr>
    <td><p>cell one</p></td>
    <td><p>cell two</p><p>new line</p><p></p></td>
</tr>
</table>"))
  (L "| cell one | cell two\\new line |")
  = true.
Proof. vm_compute. reflexivity. Qed.

(* test_html2creole.py:259 test_image *)
Example conf_html_101 : chk (html2creole ue_default false
  (L "<p><img src=""foobar1.jpg"" /><br />
<img src=""/foobar2.jpg"" /><br />
<img src=""/path1/path2/foobar3.jpg"" /><br />
<img src=""/foobar4.jpg"" alt=""It's foobar 4"" /><br />
<img src=""/foobar5.jpg"" title=""It's foobar 5"" /><br />
<img src=""/foobar6.jpg"" alt=""short name"" title=""a long picture title"" /><br />
<img src=""data:image/png;base64,iVBORw0KGgoAAAANSUhEUgAAAAUA
AAAFCAYAAACNbyblAAAAHElEQVQI12P4//8/w38GIAXDIBKE0DHxgljNBAAO
9TXL0Y4OHwAAAABJRU5ErkJggg=="" alt=""data uri should be disallowed"" /></p>"))
  (L "{{foobar1.jpg|foobar1.jpg}}
{{/foobar2.jpg|foobar2.jpg}}
{{/path1/path2/foobar3.jpg|foobar3.jpg}}
{{/foobar4.jpg|It's foobar 4}}
{{/foobar5.jpg|It's foobar 5}}
{{/foobar6.jpg|a long picture title}}")
  = true.
Proof. vm_compute. reflexivity. Qed.

(* test_html2creole.py:280 test_image_with_size *)
Example conf_html_102 : chk (html2creole ue_default false
  (L "<p><img src=""foobar1.jpg"" /><br />
<img src=""foobar2.jpg"" width=""160"" height=""90"" /><br />
<img src=""foobar3.jpg"" width=""160"" /></p>"))
  (L "{{foobar1.jpg|foobar1.jpg}}
{{foobar2.jpg|foobar2.jpg|90x160}}
{{foobar3.jpg|foobar3.jpg}}")
  = true.
Proof. vm_compute. reflexivity. Qed.

(* test_html2creole.py:292 test_image_with_size_strict *)
Example conf_html_103 : chk (html2creole ue_default true
  (L "<p><img src=""foobar1.jpg"" /><br />
<img src=""foobar2.jpg"" width=""160"" height=""90"" /><br />
<img src=""foobar3.jpg"" width=""160"" /></p>"))
  (L "{{foobar1.jpg|foobar1.jpg}}
{{foobar2.jpg|foobar2.jpg}}
{{foobar3.jpg|foobar3.jpg}}")
  = true.
Proof. vm_compute. reflexivity. Qed.

(* test_html2creole.py:303 test_non_closed_br *)
Example conf_html_104 : chk (html2creole ue_default false
  (L "<p>one<br>
two</p>"))
  (L "one
two")
  = true.
Proof. vm_compute. reflexivity. Qed.

(* test_html2creole.py:312 test_explicit_closed_br *)
Example conf_html_105 : chk (html2creole ue_default false
  (L "<p>one<br></br>
two</p>"))
  (L "one
two")
  = true.
Proof. vm_compute. reflexivity. Qed.

(* test_html2creole.py:324 test_newline_before_list *)
Example conf_html_106 : chk (html2creole ue_default false
  (L "<b>foo</b><ul><li>one</li></ul>"))
  (L "**foo**

* one")
  = true.
Proof. vm_compute. reflexivity. Qed.

(* test_html2creole.py:333 test_empty_tags_are_not_escaped *)
Example conf_html_107 : chk (html2creole ue_default false
  (L "<div class=""foo"" id=""bar""><span><em>baz</em></span>, <strong>quux</strong></div>"))
  (L "//baz//, **quux**")
  = true.
Proof. vm_compute. reflexivity. Qed.

(* test_html2creole.py:340 test_nested_listsitems_with_paragraph *)
Example conf_html_108 : chk (html2creole ue_default false
  (L "<ul>
    <li><p>item 1</p>
        <ul>
            <li><p>subitem 1.1</p>
                <ul>
                    <li>subsubitem 1.1.1</li>
                    <li>subsubitem 1.1.2</li>
                </ul>
            </li>
                <li><p>subitem 1.2</p></li>
        </ul>
    </li>
    <li><p>item 2</p>
        <ul>
            <li>subitem 2.1</li>
        </ul>
    </li>
</ul>"))
  (L "* item 1
** subitem 1.1
*** subsubitem 1.1.1
*** subsubitem 1.1.2
** subitem 1.2
* item 2
** subitem 2.1")
  = true.
Proof. vm_compute. reflexivity. Qed.

(* test_html2creole.py:371 test_class_in_list *)
Example conf_html_109 : chk (html2creole ue_default false
  (L "<ol class=gbtc><li>foo</li></ol>"))
  (L "# foo")
  = true.
Proof. vm_compute. reflexivity. Qed.

(* test_html2creole.py:379 test_ignore_links_without_href *)
Example conf_html_110 : chk (html2creole ue_default false
  (L "<a class=""foo"">bar</a>"))
  (L "bar")
  = true.
Proof. vm_compute. reflexivity. Qed.

(* test_html2creole.py:386 test_newlines_after_headlines *)
Example conf_html_111 : chk (html2creole ue_default false
  (L "<h1>Headline news</h1>

<p><a href=""http://google.com"">The googlezor</a> is a big bad mother.</p>"))
  (L "= Headline news

[[http://google.com|The googlezor]] is a big bad mother.")
  = true.
Proof. vm_compute. reflexivity. Qed.

(* test_html2creole.py:397 test_links *)
Example conf_html_112 : chk (html2creole ue_default false
  (L "<p>test link: '<a href=""internal links"">link A</a>' 1 and<br />
test link: '<a href=""http://domain.tld"">link B</a>' 2.</p>"))
  (L "test link: '[[internal links|link A]]' 1 and
test link: '[[http://domain.tld|link B]]' 2.")
  = true.
Proof. vm_compute. reflexivity. Qed.

(* test_html2creole.py:406 test_horizontal_rule *)
Example conf_html_113 : chk (html2creole ue_default false
  (L "<p>one</p>
<hr />
<p>two</p>"))
  (L "one

----

two")
  = true.
Proof. vm_compute. reflexivity. Qed.

(* test_html2creole.py:419 test_nested_empty_tags *)
Example conf_html_114 : chk (html2creole ue_default false
  (L "<p>TEST</p>"))
  (L "TEST")
  = true.
Proof. vm_compute. reflexivity. Qed.

(* test_html2creole.py:420 test_nested_empty_tags *)
Example conf_html_115 : chk (html2creole ue_default false
  (L "<bar><p>TEST</p></bar>"))
  (L "TEST")
  = true.
Proof. vm_compute. reflexivity. Qed.

(* test_html2creole.py:421 test_nested_empty_tags *)
Example conf_html_116 : chk (html2creole ue_default false
  (L "<foo><bar><p>TEST</p></bar></foo>"))
  (L "TEST")
  = true.
Proof. vm_compute. reflexivity. Qed.

(* test_html2markdown.py:8 test_code_block *)
Example conf_html_117 : chk (html2markdown ue_default
  (L "<p>Two prints:</p>
<pre><code class=""language-python"">
print(1)
print(2)
</code></pre>
<p>Below the code block.</p>"))
  (L "Two prints:

```python
print(1)
print(2)
```

Below the code block.")
  = true.
Proof. vm_compute. reflexivity. Qed.

(* test_html2markdown.py:35 test_typeface *)
Example conf_html_118 : chk (html2markdown ue_default
  (L "<p>This is <del>Strikethrough</del></p>"))
  (L "This is ~~Strikethrough~~")
  = true.
Proof. vm_compute. reflexivity. Qed.

(* test_html2markdown.py:40 test_typeface *)
Example conf_html_119 : chk (html2markdown ue_default
  (L "<p>This is <sub>Subscript</sub></p>"))
  (L "This is <sub>Subscript</sub>")
  = true.
Proof. vm_compute. reflexivity. Qed.

(* test_html2markdown.py:45 test_typeface *)
Example conf_html_120 : chk (html2markdown ue_default
  (L "<p>This is <sup>Superscript</sup></p>"))
  (L "This is <sup>Superscript</sup>")
  = true.
Proof. vm_compute. reflexivity. Qed.

(* test_html2markdown.py:50 test_typeface *)
Example conf_html_121 : chk (html2markdown ue_default
  (L "<p><strong>This text is <em>extremely</em> important</strong></p>"))
  (L "**This text is _extremely_ important**")
  = true.
Proof. vm_compute. reflexivity. Qed.

(* test_html2markdown.py:56 test_lists *)
Example conf_html_122 : chk (html2markdown ue_default
  (L "<ul>
    <li>one
        <ul>
            <li>one-one</li>
            <li>one-two</li>
        </ul>
    </li>
    <li>two
        <ol>
            <li>two-one</li>
            <li>two-two</li>
        </ol>
    </li>
</ul>"))
  (L "* one
  * one-one
  * one-two
* two
  1. two-one
  1. two-two")
  = true.
Proof. vm_compute. reflexivity. Qed.

(* test_html2markdown.py:86 test_lists *)
Example conf_html_123 : chk (html2markdown ue_default
  (L "<ul>
<li>&quot;one&quot; and &quot;two&quot;</li>
<li>&quot;three&quot;</li>
</ul>"))
  (L "* ""one"" and ""two""
* ""three""")
  = true.
Proof. vm_compute. reflexivity. Qed.

(* test_html2markdown.py:103 test_lists *)
Example conf_html_124 : chk (html2markdown ue_default
  (L "<ul>
    <li>html2markdown</li>
</ul>
<p>Here the <code>--help</code> output</p>"))
  (L "* html2markdown

Here the `--help` output")
  = true.
Proof. vm_compute. reflexivity. Qed.

(* test_html2markdown.py:123 test_table *)
Example conf_html_125 : chk (html2markdown ue_default
  (L "<table>
<tr><td>A1</td><td>B1</td></tr>
<tr><td>A2</td><td>B2</td></tr>
</table>"))
  (L "| A1 | B1 |
| A2 | B2 |")
  = true.
Proof. vm_compute. reflexivity. Qed.

(* test_html2markdown.py:140 test_table *)
Example conf_html_126 : chk (html2markdown ue_default
  (L "<h1>A Table</h1>
<table>
<tr><th>Foo</th><th>Bar</th></tr>
<tr><td>A1</td><td>B1</td></tr>
<tr><td>A2</td><td>B2</td></tr>
</table>
<p>Text after the table.</p>"))
  (L "# A Table

| Foo | Bar |
| --- | --- |
| A1  | B1  |
| A2  | B2  |

Text after the table.")
  = true.
Proof. vm_compute. reflexivity. Qed.

(* test_html2markdown.py:166 test_table *)
Example conf_html_127 : chk (html2markdown ue_default
  (L "<p>A table:</p>
<table>
<tr><td>A1</td><td>B1</td></tr>
</table>
<p>Text after.</p>"))
  (L "A table:

| A1 | B1 |

Text after.")
  = true.
Proof. vm_compute. reflexivity. Qed.

(* test_html2markdown.py:189 test_links_with_spaces *)
Example conf_html_128 : chk (html2markdown ue_default
  (L "<p><a href=""/foo bar.png"">one</a></p>
<p>
    <a href=""https://somewhere/foo bar.exe?bar=1#anchor"" title=""Foo Bar"">
    /somewhere/foo bar.exe
    </a>
</p>
<p><img alt=""Alt text"" src=""https://foo.tld/a image.png?bar=1#anchor"" /></p>"))
  (L "[one](/foo%20bar.png)

[/somewhere/foo bar.exe](https://somewhere/foo%20bar.exe?bar=1#anchor ""Foo Bar"")

![Alt text](https://foo.tld/a%20image.png?bar=1#anchor)")
  = true.
Proof. vm_compute. reflexivity. Qed.

(* test_html2rest.py:25 test_line_breaks *)
Example conf_html_129 : chk (html2rest ue_default
  (L "<p>first block, line 1
and line 2</p>
<p>second block, line 1
and line 2</p>"))
  (L "first block, line 1 and line 2

second block, line 1 and line 2")
  = true.
Proof. vm_compute. reflexivity. Qed.

(* test_html2rest.py:41 test_substitution_image_without_alt_or_title *)
Example conf_html_130 : chk (html2rest ue_default
  (L "<p>A inline <img src=""/url/to/image.png"" /> image.</p>
<p>...and some text below.</p>"))
  (L "A inline |image.png| image.

.. |image.png| image:: /url/to/image.png

...and some text below.")
  = true.
Proof. vm_compute. reflexivity. Qed.

(* test_html2rest.py:56 test_substitution_image_with_title *)
Example conf_html_131 : chk (html2rest ue_default
  (L "<p>A inline <img title=""foo bar"" src=""/url/to/image.png"" /> image.</p>
<p>...and some text below.</p>"))
  (L "A inline |foo bar| image.

.. |foo bar| image:: /url/to/image.png

...and some text below.")
  = true.
Proof. vm_compute. reflexivity. Qed.

(* test_html2rest.py:71 test_substitution_image_without_p *)
Example conf_html_132 : chk (html2rest ue_default
  (L "<img src=""/url/to/image.png"" />"))
  (L "|image.png|

.. |image.png| image:: /url/to/image.png")
  = true.
Proof. vm_compute. reflexivity. Qed.

(* test_html2rest.py:83 test_pre_code1 *)
Example conf_html_133 : chk (html2rest ue_default
  (L "<p>Text line</p>
<pre>
&gt;&gt;&gt; from creole import creole2html
&gt;&gt;&gt; creole2html(&quot;This is **creole //markup//**&quot;)
'&lt;p&gt;This is &lt;strong&gt;creole &lt;i&gt;markup&lt;/i&gt;&lt;/strong&gt;&lt;/p&gt;'
</pre>"))
  (L "Text line

::

    >>> from creole import creole2html
    >>> creole2html(""This is **creole //markup//**"")
    '<p>This is <strong>creole <i>markup</i></strong></p>'")
  = true.
Proof. vm_compute. reflexivity. Qed.

(* test_html2rest.py:104 test_escape *)
Example conf_html_134 : chk (html2rest ue_default
  (L "<ul>
<li>Use &lt;tt&gt; when {{{ ... }}} is inline and not &lt;pre&gt;, or not?</li>
</ul>"))
  (L "* Use <tt> when {{{ ... }}} is inline and not <pre>, or not?")
  = true.
Proof. vm_compute. reflexivity. Qed.

(* test_html2rest.py:116 test_inline_literals *)
Example conf_html_135 : chk (html2rest ue_default
  (L "<ul>
<p>This text is an example of <tt>inline literals</tt>.</p>
</ul>"))
  (L "This text is an example of ``inline literals``.")
  = true.
Proof. vm_compute. reflexivity. Qed.

(* test_html2rest.py:128 test_list_without_p *)
Example conf_html_136 : chk (html2rest ue_default
  (L "<p>A nested bullet lists:</p>
<ul>
    <li>item 1 without p-tag
        <ul>
            <li>A <strong><a href=""/1.1/url/"">subitem 1.1</a> link</strong> here.
                <ul>
                    <li>subsubitem 1.1.1</li>
                    <li>subsubitem 1.1.2</li>
                </ul>
            </li>
            <li>subitem 1.2</li>
        </ul>
    </li>
    <li>item 2 without p-tag
        <ul>
            <li>subitem 2.1</li>
        </ul>
    </li>
</ul>
<p>Text under list.</p>"))
  (L "A nested bullet lists:

* item 1 without p-tag

    * A **`subitem 1.1 </1.1/url/>`_ link** here.

        * subsubitem 1.1.1

        * subsubitem 1.1.2

    * subitem 1.2

* item 2 without p-tag

    * subitem 2.1

Text under list.")
  = true.
Proof. vm_compute. reflexivity. Qed.

(* test_html2rest.py:173 test_table_with_headings *)
Example conf_html_137 : chk (html2rest ue_default
  (L "<table>
<tr><th>head 1</th><th>head 2</th>
</tr>
<tr><td>item 1</td><td>item 2</td>
</tr>
</table>"))
  (L "+--------+--------+
| head 1 | head 2 |
+========+========+
| item 1 | item 2 |
+--------+--------+")
  = true.
Proof. vm_compute. reflexivity. Qed.

(* test_html2rest.py:192 test_table_without_headings *)
Example conf_html_138 : chk (html2rest ue_default
  (L "<table>
<tr><td>item 1</td><td>item 2</td>
</tr>
<tr><td>item 3</td><td>item 4</td>
</tr>
</table>"))
  (L "+--------+--------+
| item 1 | item 2 |
+--------+--------+
| item 3 | item 4 |
+--------+--------+")
  = true.
Proof. vm_compute. reflexivity. Qed.

(* test_html2textile.py:25 test_entities *)
Example conf_html_139 : chk (html2textile ue_default
  (L "<p>less-than sign: &lt;<br />
greater-than sign: &gt;</p>"))
  (L "less-than sign: <
greater-than sign: >")
  = true.
Proof. vm_compute. reflexivity. Qed.

(* test_html2textile.py:41 test_preformat_unknown_nodes *)
Example conf_html_140 : chk (html2textile ue_preformat
  (L "<p>111 <x>foo</x> 222<br />
333<x foo1=""bar1"">foobar</x>444</p>

<p>555<x />666</p>"))
  (L "111 <<pre>><x><</pre>>foo<<pre>></x><</pre>> 222
333<<pre>><x foo1=""bar1""><</pre>>foobar<<pre>></x><</pre>>444

555<<pre>><x /><</pre>>666")
  = true.
Proof. vm_compute. reflexivity. Qed.

(* test_html2textile.py:64 test_transparent_unknown_nodes *)
Example conf_html_141 : chk (html2textile ue_default
  (L "<p>111 <x>foo</x> 222<br />
333<x foo1=""bar1"">foobar</x>444</p>

<p>555<x />666</p>"))
  (L "111 foo 222
333foobar444

555666")
  = true.
Proof. vm_compute. reflexivity. Qed.

