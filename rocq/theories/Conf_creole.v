(** Generated by tools/gen_conf.py from /repo/creole/tests. Do not edit.
    Evaluation of the model on the expectations of the project's own unit tests. *)
From Coq Require Import String List NArith ZArith Bool.
From Verif Require Import ConfCreole.
Import ListNotations.
Open Scope N_scope.

(* test_creole2html.py:83 test_example_macros1 *)
Example conf_creole_001 : chk_c2h exact (mkopts true (Some 1%Z) false) ex_md
  (L "<<html>><p>foo</p><</html>><bar?>")
  (L "<p>foo</p>
<p>&lt;bar?&gt;</p>")
  = true.
Proof. vm_compute. reflexivity. Qed.

(* test_creole2html.py:92 test_example_macros2 *)
Example conf_creole_002 : chk_c2h exact (mkopts true (Some 1%Z) false) ex_md
  (L "<<html>>{{{&lt;nocode&gt;}}}<</html>>")
  (L "{{{&lt;nocode&gt;}}}")
  = true.
Proof. vm_compute. reflexivity. Qed.

(* test_creole2html.py:101 test_example_macros3 *)
Example conf_creole_003 : chk_c2h exact (mkopts true (Some 1%Z) false) ex_md
  (L "<<html>>1<</html>><<html>>2<</html>>")
  (L "1
2")
  = true.
Proof. vm_compute. reflexivity. Qed.

(* test_creole2html.py:207 test_code_macro_fallback *)
Example conf_creole_004 : chk_c2h tabs4 (mkopts true (Some 1%Z) false) ex_md
  (L "Here a simple code macro test:
<<code ext="".py"">>
for i in xrange(10):
    print('hello world')
<</code>>")
  (L "<p>Here a simple code macro test:</p>
<pre>for i in xrange(10):
    print('hello world')</pre>")
  = true.
Proof. vm_compute. reflexivity. Qed.

(* test_creole2html.py:226 test_code_macro_fallback_escape *)
Example conf_creole_005 : chk_c2h tabs4 (mkopts true (Some 1%Z) false) ex_md
  (L "<<code ext="".py"">>
print('This >>should<< be escaped!')
<</code>>")
  (L "<pre>print('This &gt;&gt;should&lt;&lt; be escaped!')</pre>")
  = true.
Proof. vm_compute. reflexivity. Qed.

(* test_creole2html.py:242 test_creole_basic *)
Example conf_creole_006 : chk_c2h exact (mkopts true None false) no_md
  (L "a text line.")
  (L "<p>a text line.</p>")
  = true.
Proof. vm_compute. reflexivity. Qed.

(* test_creole2html.py:247 test_lineendings *)
Example conf_creole_007 : chk_c2h exact (mkopts true None false) no_md
  (L "first
second")
  (L "<p>first<br />
second</p>")
  = true.
Proof. vm_compute. reflexivity. Qed.

(* test_creole2html.py:250 test_lineendings *)
Example conf_creole_008 : chk_c2h exact (mkopts true None false) no_md
  (L "first" ++ [13] ++ L "second")
  (L "<p>first<br />
second</p>")
  = true.
Proof. vm_compute. reflexivity. Qed.

(* test_creole2html.py:253 test_lineendings *)
Example conf_creole_009 : chk_c2h exact (mkopts true None false) no_md
  (L "first" ++ [13] ++ L "
second")
  (L "<p>first<br />
second</p>")
  = true.
Proof. vm_compute. reflexivity. Qed.

(* test_creole2html.py:258 test_creole_linebreak *)
Example conf_creole_010 : chk_c2h tabs4 (mkopts true (Some 1%Z) false) no_md
  (L "Force\\linebreak")
  (L "<p>Force<br />
linebreak</p>")
  = true.
Proof. vm_compute. reflexivity. Qed.

(* test_creole2html.py:266 test_html_lines *)
Example conf_creole_011 : chk_c2h tabs4 (mkopts true (Some 1%Z) false) no_md
  (L "This is a normal Text block witch would
escape html chars like < and > ;)

So you can't insert <html> directly.

<p>This escaped, too.</p>")
  (L "<p>This is a normal Text block witch would<br />
escape html chars like &lt; and &gt; ;)</p>

<p>So you can't insert &lt;html&gt; directly.</p>

<p>&lt;p&gt;This escaped, too.&lt;/p&gt;</p>")
  = true.
Proof. vm_compute. reflexivity. Qed.

(* test_creole2html.py:283 test_escape_char *)
Example conf_creole_012 : chk_c2h tabs4 (mkopts true (Some 1%Z) false) no_md
  (L "~#1
http://domain.tld/~bar/
~http://domain.tld/
[[Link]]
~[[Link]]")
  (L "<p>#1<br />
<a href=""http://domain.tld/~bar/"">http://domain.tld/~bar/</a><br />
http://domain.tld/<br />
<a href=""Link"">Link</a><br />
[[Link]]</p>")
  = true.
Proof. vm_compute. reflexivity. Qed.

(* test_creole2html.py:298 test_cross_paragraphs *)
Example conf_creole_013 : chk_c2h tabs4 (mkopts true (Some 1%Z) false) no_md
  (L "Bold and italics should //not be...

...able// to **cross

paragraphs.**")
  (L "<p>Bold and italics should //not be...</p>

<p>...able// to **cross</p>

<p>paragraphs.**</p>")
  = true.
Proof. vm_compute. reflexivity. Qed.

(* test_creole2html.py:316 test_list_special *)
Example conf_creole_014 : chk_c2h tabs4 (mkopts true (Some 1%Z) false) no_md
  (L "* Item 1
** Item 1.1
 ** Item 1.2
    ** Item 1.3
        * Item2

    # one
  ## two")
  (L "<ul>
    <li>Item 1
    <ul>
        <li>Item 1.1</li>
        <li>Item 1.2</li>
        <li>Item 1.3</li>
    </ul></li>
    <li>Item2</li>
</ul>
<ol>
    <li>one
    <ol>
        <li>two</li>
    </ol></li>
</ol>")
  = true.
Proof. vm_compute. reflexivity. Qed.

(* test_creole2html.py:347 test_macro_basic *)
Example conf_creole_015 : chk_c2h tabs4 (mkopts true (Some 1%Z) false) tm_md
  (L "There exist three different macro types:
A <<unittest_macro1 args=""foo1"">>bar1<</unittest_macro1>> in a line...
...a single <<unittest_macro1 foo=""bar"">> tag,
or: <<unittest_macro1 a=1 b=2 />> closed...

a macro block:
<<unittest_macro2 char=""|"">>
the
text
<</unittest_macro2>>
the end")
  (L "<p>There exist three different macro types:<br />
A [test macro1 - kwargs: args=""foo1"",text=""bar1""] in a line...<br />
...a single [test macro1 - kwargs: foo=""bar"",text=null] tag,<br />
or: [test macro1 - kwargs: a=1,b=2,text=null] closed...</p>

<p>a macro block:</p>
the|text
<p>the end</p>")
  = true.
Proof. vm_compute. reflexivity. Qed.

(* test_creole2html.py:373 test_macro_html1 *)
Example conf_creole_016 : chk_c2h tabs4 (mkopts true (Some 1%Z) false) ex_md
  (L "html macro:
<<html>>
<p><<this is broken 'html', but it will be pass throu>></p>
<</html>>

inline: <<html>>&#x7B;...&#x7D;<</html>> code")
  (L "<p>html macro:</p>
<p><<this is broken 'html', but it will be pass throu>></p>

<p>inline: &#x7B;...&#x7D; code</p>")
  = true.
Proof. vm_compute. reflexivity. Qed.

(* test_creole2html.py:415 test_macro_not_exist1 *)
Example conf_creole_017 : chk_c2h tabs4 (mkopts true (Some 1%Z) false) no_md
  (L "macro block:
<<notexists>>
foo bar
<</notexists>>

inline macro:
<<notexisttoo foo=""bar"">>")
  (L "<p>macro block:</p>
[Error: Macro 'notexists' doesn't exist]

<p>inline macro:<br />
[Error: Macro 'notexisttoo' doesn't exist]
</p>")
  = true.
Proof. vm_compute. reflexivity. Qed.

(* test_creole2html.py:421 test_wrong_macro_syntax *)
Example conf_creole_018 : chk_c2h tabs4 (mkopts true (Some 1%Z) false) no_md
  (L "wrong macro line:
<<summary>Some funky page summary.<</summary>>")
  (L "<p>wrong macro line:<br />
[Error: Wrong macro arguments: "">Some funky page summary.<</summary"" for macro 'summary' (maybe wrong macro tag syntax?)]
</p>")
  = true.
Proof. vm_compute. reflexivity. Qed.

(* test_creole2html.py:437 test_macro_not_exist2 *)
Example conf_creole_019 : chk_c2h tabs4 (mkopts true (Some 0%Z) false) no_md
  (L "macro block:
<<notexists>>
foo bar
<</notexists>>

inline macro:
<<notexisttoo foo=""bar"">>")
  (L "<p>macro block:</p>

<p>inline macro:<br />
</p>")
  = true.
Proof. vm_compute. reflexivity. Qed.

(* test_creole2html.py:457 test_toc_simple *)
Example conf_creole_020 : chk_c2h tabs4 (mkopts true (Some 1%Z) false) no_md
  (L "<<toc>>
= Headline")
  (L "<ul>
    <li><a href=""#Headline"">Headline</a></li>
</ul>
<a name=""Headline""><h1>Headline</h1></a>")
  = true.
Proof. vm_compute. reflexivity. Qed.

(* test_creole2html.py:468 test_toc_more_headlines *)
Example conf_creole_021 : chk_c2h tabs4 (mkopts true (Some 1%Z) false) no_md
  (L "Between text and toc must be a newline.

<<toc>>
= Headline 1
== Sub-Headline 1.1
== Sub-Headline 1.2
= Headline 2
== Sub-Headline 2.1
== Sub-Headline 2.2")
  (L "<p>Between text and toc must be a newline.</p>

<ul>
    <li><a href=""#Headline 1"">Headline 1</a></li>
    <ul>
        <li><a href=""#Sub-Headline 1.1"">Sub-Headline 1.1</a></li>
        <li><a href=""#Sub-Headline 1.2"">Sub-Headline 1.2</a></li>
    </ul>
    <li><a href=""#Headline 2"">Headline 2</a></li>
    <ul>
        <li><a href=""#Sub-Headline 2.1"">Sub-Headline 2.1</a></li>
        <li><a href=""#Sub-Headline 2.2"">Sub-Headline 2.2</a></li>
    </ul>
</ul>
<a name=""Headline 1""><h1>Headline 1</h1></a>
<a name=""Sub-Headline 1.1""><h2>Sub-Headline 1.1</h2></a>
<a name=""Sub-Headline 1.2""><h2>Sub-Headline 1.2</h2></a>
<a name=""Headline 2""><h1>Headline 2</h1></a>
<a name=""Sub-Headline 2.1""><h2>Sub-Headline 2.1</h2></a>
<a name=""Sub-Headline 2.2""><h2>Sub-Headline 2.2</h2></a>")
  = true.
Proof. vm_compute. reflexivity. Qed.

(* test_creole2html.py:502 test_toc_chaotic_headlines *)
Example conf_creole_022 : chk_c2h tabs4 (mkopts true (Some 1%Z) false) no_md
  (L "<<toc>>
= level 1
=== level 3
== level 2
==== level 4
= level 1")
  (L "<ul>
    <li><a href=""#level 1"">level 1</a></li>
    <ul>
        <ul>
            <li><a href=""#level 3"">level 3</a></li>
        </ul>
        <li><a href=""#level 2"">level 2</a></li>
        <ul>
            <ul>
                <li><a href=""#level 4"">level 4</a></li>
            </ul>
        </ul>
    </ul>
    <li><a href=""#level 1"">level 1</a></li>
</ul>
<a name=""level 1""><h1>level 1</h1></a>
<a name=""level 3""><h3>level 3</h3></a>
<a name=""level 2""><h2>level 2</h2></a>
<a name=""level 4""><h4>level 4</h4></a>
<a name=""level 1""><h1>level 1</h1></a>")
  = true.
Proof. vm_compute. reflexivity. Qed.

(* test_creole2html.py:533 test_toc_depth_1 *)
Example conf_creole_023 : chk_c2h tabs4 (mkopts true (Some 1%Z) false) no_md
  (L "<<toc depth=1>>
= Headline 1
== Sub-Headline 1.1
=== Sub-Sub-Headline 1.1.1
=== Sub-Sub-Headline 1.1.2
== Sub-Headline 1.2
= Headline 2
== Sub-Headline 2.1
== Sub-Headline 2.2
=== Sub-Sub-Headline 2.2.1")
  (L "<ul>
    <li><a href=""#Headline 1"">Headline 1</a></li>
    <li><a href=""#Headline 2"">Headline 2</a></li>
</ul>
<a name=""Headline 1""><h1>Headline 1</h1></a>
<a name=""Sub-Headline 1.1""><h2>Sub-Headline 1.1</h2></a>
<a name=""Sub-Sub-Headline 1.1.1""><h3>Sub-Sub-Headline 1.1.1</h3></a>
<a name=""Sub-Sub-Headline 1.1.2""><h3>Sub-Sub-Headline 1.1.2</h3></a>
<a name=""Sub-Headline 1.2""><h2>Sub-Headline 1.2</h2></a>
<a name=""Headline 2""><h1>Headline 2</h1></a>
<a name=""Sub-Headline 2.1""><h2>Sub-Headline 2.1</h2></a>
<a name=""Sub-Headline 2.2""><h2>Sub-Headline 2.2</h2></a>
<a name=""Sub-Sub-Headline 2.2.1""><h3>Sub-Sub-Headline 2.2.1</h3></a>")
  = true.
Proof. vm_compute. reflexivity. Qed.

(* test_creole2html.py:561 test_toc_depth_2 *)
Example conf_creole_024 : chk_c2h tabs4 (mkopts true (Some 1%Z) false) no_md
  (L "<<toc depth=2>>
= Headline 1
== Sub-Headline 1.1
=== Sub-Sub-Headline 1.1.1
=== Sub-Sub-Headline 1.1.2
== Sub-Headline 1.2
= Headline 2
== Sub-Headline 2.1
== Sub-Headline 2.2
=== Sub-Sub-Headline 2.2.1")
  (L "<ul>
    <li><a href=""#Headline 1"">Headline 1</a></li>
    <ul>
        <li><a href=""#Sub-Headline 1.1"">Sub-Headline 1.1</a></li>
        <li><a href=""#Sub-Headline 1.2"">Sub-Headline 1.2</a></li>
    </ul>
    <li><a href=""#Headline 2"">Headline 2</a></li>
    <ul>
        <li><a href=""#Sub-Headline 2.1"">Sub-Headline 2.1</a></li>
        <li><a href=""#Sub-Headline 2.2"">Sub-Headline 2.2</a></li>
    </ul>
</ul>
<a name=""Headline 1""><h1>Headline 1</h1></a>
<a name=""Sub-Headline 1.1""><h2>Sub-Headline 1.1</h2></a>
<a name=""Sub-Sub-Headline 1.1.1""><h3>Sub-Sub-Headline 1.1.1</h3></a>
<a name=""Sub-Sub-Headline 1.1.2""><h3>Sub-Sub-Headline 1.1.2</h3></a>
<a name=""Sub-Headline 1.2""><h2>Sub-Headline 1.2</h2></a>
<a name=""Headline 2""><h1>Headline 2</h1></a>
<a name=""Sub-Headline 2.1""><h2>Sub-Headline 2.1</h2></a>
<a name=""Sub-Headline 2.2""><h2>Sub-Headline 2.2</h2></a>
<a name=""Sub-Sub-Headline 2.2.1""><h3>Sub-Sub-Headline 2.2.1</h3></a>")
  = true.
Proof. vm_compute. reflexivity. Qed.

(* test_creole2html.py:597 test_toc_depth_3 *)
Example conf_creole_025 : chk_c2h tabs4 (mkopts true (Some 1%Z) false) no_md
  (L "<<toc depth=3>>
= Headline 1
== Sub-Headline 1.1
=== Sub-Sub-Headline 1.1.1
=== Sub-Sub-Headline 1.1.2
== Sub-Headline 1.2
= Headline 2
== Sub-Headline 2.1
== Sub-Headline 2.2
=== Sub-Sub-Headline 2.2.1")
  (L "<ul>
    <li><a href=""#Headline 1"">Headline 1</a></li>
    <ul>
        <li><a href=""#Sub-Headline 1.1"">Sub-Headline 1.1</a></li>
        <ul>
            <li><a href=""#Sub-Sub-Headline 1.1.1"">Sub-Sub-Headline 1.1.1</a></li>
            <li><a href=""#Sub-Sub-Headline 1.1.2"">Sub-Sub-Headline 1.1.2</a></li>
        </ul>
        <li><a href=""#Sub-Headline 1.2"">Sub-Headline 1.2</a></li>
    </ul>
    <li><a href=""#Headline 2"">Headline 2</a></li>
    <ul>
        <li><a href=""#Sub-Headline 2.1"">Sub-Headline 2.1</a></li>
        <li><a href=""#Sub-Headline 2.2"">Sub-Headline 2.2</a></li>
        <ul>
            <li><a href=""#Sub-Sub-Headline 2.2.1"">Sub-Sub-Headline 2.2.1</a></li>
        </ul>
    </ul>
</ul>
<a name=""Headline 1""><h1>Headline 1</h1></a>
<a name=""Sub-Headline 1.1""><h2>Sub-Headline 1.1</h2></a>
<a name=""Sub-Sub-Headline 1.1.1""><h3>Sub-Sub-Headline 1.1.1</h3></a>
<a name=""Sub-Sub-Headline 1.1.2""><h3>Sub-Sub-Headline 1.1.2</h3></a>
<a name=""Sub-Headline 1.2""><h2>Sub-Headline 1.2</h2></a>
<a name=""Headline 2""><h1>Headline 2</h1></a>
<a name=""Sub-Headline 2.1""><h2>Sub-Headline 2.1</h2></a>
<a name=""Sub-Headline 2.2""><h2>Sub-Headline 2.2</h2></a>
<a name=""Sub-Sub-Headline 2.2.1""><h3>Sub-Sub-Headline 2.2.1</h3></a>")
  = true.
Proof. vm_compute. reflexivity. Qed.

(* test_creole2html.py:640 test_toc_with_no_toc *)
Example conf_creole_026 : chk_c2h tabs4 (mkopts true (Some 1%Z) false) no_md
  (L "<<toc>>
= This is the Headline
Use {{{<<toc>>}}} to insert a table of contents.")
  (L "<ul>
    <li><a href=""#This is the Headline"">This is the Headline</a></li>
</ul>
<a name=""This is the Headline""><h1>This is the Headline</h1></a>
<p>Use <code>&lt;&lt;toc&gt;&gt;</code> to insert a table of contents.</p>")
  = true.
Proof. vm_compute. reflexivity. Qed.

(* test_creole2html.py:656 test_toc_more_then_one_toc *)
Example conf_creole_027 : chk_c2h tabs4 (mkopts true (Some 1%Z) false) no_md
  (L "Not here:
{{{
print(""<<toc>>"")
}}}

and onle the first:

<<toc>>

<<toc>>
<<toc>>
= Headline
== Sub-Headline")
  (L "<p>Not here:</p>
<pre>
print(""&lt;&lt;toc&gt;&gt;"")
</pre>

<p>and onle the first:</p>

<ul>
    <li><a href=""#Headline"">Headline</a></li>
    <ul>
        <li><a href=""#Sub-Headline"">Sub-Headline</a></li>
    </ul>
</ul>

<p>&lt;&lt;toc&gt;&gt;<br />
&lt;&lt;toc&gt;&gt;</p>
<a name=""Headline""><h1>Headline</h1></a>
<a name=""Sub-Headline""><h2>Sub-Headline</h2></a>")
  = true.
Proof. vm_compute. reflexivity. Qed.

(* test_creole2html.py:692 test_toc_headline_before_toc *)
Example conf_creole_028 : chk_c2h tabs4 (mkopts true (Some 1%Z) false) no_md
  (L "= headline
== sub headline

<<toc>>

ok?")
  (L "<a name=""headline""><h1>headline</h1></a>
<a name=""sub headline""><h2>sub headline</h2></a>

<ul>
    <li><a href=""#headline"">headline</a></li>
    <ul>
        <li><a href=""#sub headline"">sub headline</a></li>
    </ul>
</ul>

<p>ok?</p>")
  = true.
Proof. vm_compute. reflexivity. Qed.

(* test_creole2html.py:715 test_image *)
Example conf_creole_029 : chk_c2h tabs4 (mkopts true (Some 1%Z) false) no_md
  (L "{{foobar1.jpg}}
{{/path1/path2/foobar2.jpg}}
{{/path1/path2/foobar3.jpg|foobar3.jpg}}")
  (L "<p><img src=""foobar1.jpg"" title=""foobar1.jpg"" alt=""foobar1.jpg"" /><br />
<img src=""/path1/path2/foobar2.jpg"" title=""/path1/path2/foobar2.jpg"" alt=""/path1/path2/foobar2.jpg"" /><br />
<img src=""/path1/path2/foobar3.jpg"" title=""foobar3.jpg"" alt=""foobar3.jpg"" /></p>")
  = true.
Proof. vm_compute. reflexivity. Qed.

(* test_creole2html.py:727 test_image_with_size *)
Example conf_creole_030 : chk_c2h tabs4 (mkopts true (Some 1%Z) false) no_md
  (L "{{/path1/path2/foobar3.jpg|foo|160x90}}
{{/path1/path2/foobar3.jpg|foo| 160 x 90 }}
{{/path1/path2/foobar3.jpg|foo|160}}
{{/path1/path2/foobar3.jpg||160x90}}
{{/path1/path2/foobar3.jpg|foo|}}")
  (L "<p><img src=""/path1/path2/foobar3.jpg"" title=""foo"" alt=""foo"" width=""160"" height=""90"" /><br />
<img src=""/path1/path2/foobar3.jpg"" title=""foo"" alt=""foo"" width=""160"" height=""90"" /><br />
<img src=""/path1/path2/foobar3.jpg"" title=""foo|160"" alt=""foo|160"" /><br />
<img src=""/path1/path2/foobar3.jpg"" title=""/path1/path2/foobar3.jpg"" alt=""/path1/path2/foobar3.jpg"" width=""160"" height=""90"" /><br />
<img src=""/path1/path2/foobar3.jpg"" title=""foo|"" alt=""foo|"" /></p>")
  = true.
Proof. vm_compute. reflexivity. Qed.

(* test_creole2html.py:743 test_image_with_size_strict *)
Example conf_creole_031 : chk_c2h tabs4 (mkopts true (Some 1%Z) true) no_md
  (L "{{/path1/path2/foobar3.jpg|foo|160x90}}
{{/path1/path2/foobar3.jpg|foo|160}}")
  (L "<p><img src=""/path1/path2/foobar3.jpg"" title=""foo|160x90"" alt=""foo|160x90"" /><br />
<img src=""/path1/path2/foobar3.jpg"" title=""foo|160"" alt=""foo|160"" /></p>")
  = true.
Proof. vm_compute. reflexivity. Qed.

(* test_creole2html.py:752 test_image_unknown_extension *)
Example conf_creole_032 : chk_c2h tabs4 (mkopts true (Some 1%Z) false) no_md
  (L "# {{/path/to/image.ext|image ext}} one
# {{/no/extension|no extension}} two
# {{/image.xyz}} tree")
  (L "<ol>
    <li><img src=""/path/to/image.ext"" title=""image ext"" alt=""image ext"" /> one</li>
    <li><img src=""/no/extension"" title=""no extension"" alt=""no extension"" /> two</li>
    <li><img src=""/image.xyz"" title=""/image.xyz"" alt=""/image.xyz"" /> tree</li>
</ol>")
  = true.
Proof. vm_compute. reflexivity. Qed.

(* test_creole2html.py:765 test_links *)
Example conf_creole_033 : chk_c2h tabs4 (mkopts true (Some 1%Z) false) no_md
  (L "[[/foobar/Creole_(Markup)]]
[[http://de.wikipedia.org/wiki/Creole_(Markup)|Creole@wikipedia]]")
  (L "<p><a href=""/foobar/Creole_(Markup)"">/foobar/Creole_(Markup)</a><br />
<a href=""http://de.wikipedia.org/wiki/Creole_(Markup)"">Creole@wikipedia</a></p>")
  = true.
Proof. vm_compute. reflexivity. Qed.

(* test_creole2html.py:774 test_standalone_hyperlink *)
Example conf_creole_034 : chk_c2h tabs4 (mkopts true (Some 1%Z) false) no_md
  (L "a link to the http://www.pylucid.org page.")
  (L "<p>a link to the <a href=""http://www.pylucid.org"">http://www.pylucid.org</a> page.</p>")
  = true.
Proof. vm_compute. reflexivity. Qed.

(* test_creole2html.py:792 test_wiki_style_line_breaks1 *)
Example conf_creole_035 : chk_c2h exact (mkopts false (Some 1%Z) false) no_md
  (L "wiki style
linebreaks

...and not blog styled.")
  (L "<p>wiki style linebreaks</p>

<p>...and not blog styled.</p>")
  = true.
Proof. vm_compute. reflexivity. Qed.

(* test_creole2html.py:810 test_wiki_style_line_breaks2 *)
Example conf_creole_036 : chk_c2h exact (mkopts false (Some 1%Z) false) no_md
  (L "**one**
//two//

* one
* two")
  (L "<p><strong>one</strong> <i>two</i></p>

<ul>
	<li>one</li>
	<li>two</li>
</ul>")
  = true.
Proof. vm_compute. reflexivity. Qed.

(* test_creole2html.py:837 test_wiki_style_line_breaks3 *)
Example conf_creole_037 : chk_c2h exact (mkopts false None false) no_md
  (L "with blog line breaks, every line break would be convertet into<br />
with wiki style not.

This is the first line,\\and this is the second.

new line
block 1

new line
block 2

end")
  (L "<p>with blog line breaks, every line break would be convertet into&lt;br /&gt; with wiki style not.</p>

<p>This is the first line,<br />
and this is the second.</p>

<p>new line block 1</p>

<p>new line block 2</p>

<p>end</p>")
  = true.
Proof. vm_compute. reflexivity. Qed.

(* test_creole2html.py:855 test_headline_spaces *)
Example conf_creole_038 : chk_c2h exact (mkopts true None false) no_md
  (L "== Headline1 == 
== Headline2== ")
  (L "<h2>Headline1</h2>
<h2>Headline2</h2>")
  = true.
Proof. vm_compute. reflexivity. Qed.

(* test_creole2html.py:861 test_tt *)
Example conf_creole_039 : chk_c2h tabs4 (mkopts true (Some 1%Z) false) no_md
  (L "inline {{{<escaped>}}} and {{{ **not strong** }}}...
...and ##**strong** Teletyper## ;)")
  (L "<p>inline <code>&lt;escaped&gt;</code> and <code> **not strong** </code>...<br />
...and <tt><strong>strong</strong> Teletyper</tt> ;)</p>")
  = true.
Proof. vm_compute. reflexivity. Qed.

(* test_creole2html.py:873 test_protocol_in_brackets *)
Example conf_creole_040 : chk_c2h tabs4 (mkopts true (Some 1%Z) false) no_md
  (L "My Server ([[ftp://foo/bar]]) is ok.")
  (L "<p>My Server (<a href=""ftp://foo/bar"">ftp://foo/bar</a>) is ok.</p>")
  = true.
Proof. vm_compute. reflexivity. Qed.

(* test_creole2html.py:878 test_protocol_in_brackets *)
Example conf_creole_041 : chk_c2h tabs4 (mkopts true (Some 1%Z) false) no_md
  (L "My Server (ftp://foo/bar) is ok.")
  (L "<p>My Server (ftp://foo/bar) is ok.</p>")
  = true.
Proof. vm_compute. reflexivity. Qed.

(* test_creole2html.py:885 test_protocol_with_brackets *)
Example conf_creole_042 : chk_c2h tabs4 (mkopts true (Some 1%Z) false) no_md
  (L "A http://en.wikipedia.org/wiki/Uri_(Island) link.")
  (L "<p>A <a href=""http://en.wikipedia.org/wiki/Uri_(Island)"">http://en.wikipedia.org/wiki/Uri_(Island)</a> link.</p>")
  = true.
Proof. vm_compute. reflexivity. Qed.

(* test_creole2html.py:892 test_wrong_protocol *)
Example conf_creole_043 : chk_c2h tabs4 (mkopts true (Some 1%Z) false) no_md
  (L "~ftp://ok")
  (L "<p>ftp://ok</p>")
  = true.
Proof. vm_compute. reflexivity. Qed.

(* test_creole2html.py:897 test_wrong_protocol *)
Example conf_creole_044 : chk_c2h tabs4 (mkopts true (Some 1%Z) false) no_md
  (L "ftp:")
  (L "<p>ftp:</p>")
  = true.
Proof. vm_compute. reflexivity. Qed.

(* test_creole2html.py:902 test_wrong_protocol *)
Example conf_creole_045 : chk_c2h tabs4 (mkopts true (Some 1%Z) false) no_md
  (L "ftp:/")
  (L "<p>ftp:/</p>")
  = true.
Proof. vm_compute. reflexivity. Qed.

(* test_creole2html.py:907 test_wrong_protocol *)
Example conf_creole_046 : chk_c2h tabs4 (mkopts true (Some 1%Z) false) no_md
  (L "missing space.ftp://ok")
  (L "<p>missing space.ftp://ok</p>")
  = true.
Proof. vm_compute. reflexivity. Qed.

(* test_cross_compare_all.py:31 test_bold_italics *)
Example conf_creole_047 : chk_c2h tabs4 (mkopts true (Some 1%Z) false) no_md
  (L "**bold** //italics//
//italics and **bold**.//
**bold and //italics//.**")
  (L "<p><strong>bold</strong> <i>italics</i><br />
<i>italics and <strong>bold</strong>.</i><br />
<strong>bold and <i>italics</i>.</strong></p>")
  = true.
Proof. vm_compute. reflexivity. Qed.

(* test_cross_compare_all.py:68 test_bold_italics2 *)
Example conf_creole_048 : chk_c2h tabs4 (mkopts true (Some 1%Z) false) no_md
  (L "**//bold italics//**
//**bold italics**//
//This is **also** good.//")
  (L "<p><strong><i>bold italics</i></strong><br />
<i><strong>bold italics</strong></i><br />
<i>This is <strong>also</strong> good.</i></p>")
  = true.
Proof. vm_compute. reflexivity. Qed.

(* test_cross_compare_all.py:96 test_headlines1 *)
Example conf_creole_049 : chk_c2h tabs4 (mkopts true (Some 1%Z) false) no_md
  (L "= Section Title 1

== Section Title 2

=== Section Title 3

==== Section Title 4

===== Section Title 5

====== Section Title 6")
  (L "<h1>Section Title 1</h1>

<h2>Section Title 2</h2>

<h3>Section Title 3</h3>

<h4>Section Title 4</h4>

<h5>Section Title 5</h5>

<h6>Section Title 6</h6>")
  = true.
Proof. vm_compute. reflexivity. Qed.

(* test_cross_compare_all.py:177 test_horizontal_rule *)
Example conf_creole_050 : chk_c2h tabs4 (mkopts true (Some 1%Z) false) no_md
  (L "Text before horizontal rule.

----

Text after the line.")
  (L "<p>Text before horizontal rule.</p>

<hr />

<p>Text after the line.</p>")
  = true.
Proof. vm_compute. reflexivity. Qed.

(* test_cross_compare_all.py:198 test_link *)
Example conf_creole_051 : chk_c2h tabs4 (mkopts true (Some 1%Z) false) no_md
  (L "X [[http://domain.tld|link B]] test.")
  (L "<p>X <a href=""http://domain.tld"">link B</a> test.</p>")
  = true.
Proof. vm_compute. reflexivity. Qed.

(* test_cross_compare_all.py:214 test_link_without_title *)
Example conf_creole_052 : chk_c2h tabs4 (mkopts true (Some 1%Z) false) no_md
  (L "[[http://www.pylucid.org]]")
  (L "<p><a href=""http://www.pylucid.org"">http://www.pylucid.org</a></p>")
  = true.
Proof. vm_compute. reflexivity. Qed.

(* test_cross_compare_all.py:230 test_link_with_unknown_protocol *)
Example conf_creole_053 : chk_c2h tabs4 (mkopts true (Some 1%Z) false) no_md
  (L "X [[foo://bar|unknown protocol]] Y")
  (L "<p>X <a href=""foo://bar"">unknown protocol</a> Y</p>")
  = true.
Proof. vm_compute. reflexivity. Qed.

(* test_cross_compare_all.py:247 test_link_with_at_sign *)
Example conf_creole_054 : chk_c2h tabs4 (mkopts true (Some 1%Z) false) no_md
  (L "X [[http://de.wikipedia.org/wiki/Creole_(Markup)|Creole@wikipedia]]")
  (L "<p>X <a href=""http://de.wikipedia.org/wiki/Creole_(Markup)"">Creole@wikipedia</a></p>")
  = true.
Proof. vm_compute. reflexivity. Qed.

(* test_cross_compare_all.py:273 test_image *)
Example conf_creole_055 : chk_c2h tabs4 (mkopts true (Some 1%Z) false) no_md
  (L "a {{/image.jpg|JPG pictures}} and
a {{/image.jpeg|JPEG pictures}} and
a {{/image.gif|GIF pictures}} and
a {{/image.png|PNG pictures}} !
{{/path1/path2/image|Image without files ext?}}")
  (L "<p>a <img src=""/image.jpg"" title=""JPG pictures"" alt=""JPG pictures"" /> and<br />
a <img src=""/image.jpeg"" title=""JPEG pictures"" alt=""JPEG pictures"" /> and<br />
a <img src=""/image.gif"" title=""GIF pictures"" alt=""GIF pictures"" /> and<br />
a <img src=""/image.png"" title=""PNG pictures"" alt=""PNG pictures"" /> !<br />
<img src=""/path1/path2/image"" title=""Image without files ext?"" alt=""Image without files ext?"" /></p>")
  = true.
Proof. vm_compute. reflexivity. Qed.

(* test_cross_compare_all.py:342 test_link_image *)
Example conf_creole_056 : chk_c2h tabs4 (mkopts true (Some 1%Z) false) no_md
  (L "Linked [[http://example.com/|{{myimage.jpg|example site}} image]]")
  (L "<p>Linked <a href=""http://example.com/""><img src=""myimage.jpg"" title=""example site"" alt=""example site"" /> image</a></p>")
  = true.
Proof. vm_compute. reflexivity. Qed.

(* test_cross_compare_all.py:373 test_pre1 *)
Example conf_creole_057 : chk_c2h tabs4 (mkopts true (Some 1%Z) false) no_md
  (L "{{{
* no list
}}}")
  (L "<pre>
* no list
</pre>")
  = true.
Proof. vm_compute. reflexivity. Qed.

(* test_cross_compare_all.py:445 test_pre_contains_braces *)
Example conf_creole_058 : chk_c2h tabs4 (mkopts true (Some 1%Z) false) no_md
  (L "{{{
# Closing braces in nowiki:
if (x != NULL) {
  for (i = 0) {
    if (x = 1) {
      x[i]--;
  }}}
}}}")
  (L "<pre>
# Closing braces in nowiki:
if (x != NULL) {
  for (i = 0) {
    if (x = 1) {
      x[i]--;
  }}}
</pre>")
  = true.
Proof. vm_compute. reflexivity. Qed.

(* test_cross_compare_all.py:489 test_list *)
Example conf_creole_059 : chk_c2h stripped (mkopts true (Some 1%Z) false) no_md
  (L "* **bold** item
* //italic// item

# item about a [[/foo/bar|certain_page]]")
  (L "<ul>
<li><strong>bold</strong> item</li>
<li><i>italic</i> item</li>
</ul>
<ol>
<li>item about a <a href=""/foo/bar"">certain_page</a></li>
</ol>")
  = true.
Proof. vm_compute. reflexivity. Qed.

(* test_cross_compare_all.py:515 test_simple_table *)
Example conf_creole_060 : chk_c2h stripped (mkopts true (Some 1%Z) false) no_md
  (L "|= Headline 1 |= Headline 2 |
| cell one    | cell two    |")
  (L "<table>
<tr>
<th>Headline 1</th>
<th>Headline 2</th>
</tr>
<tr>
<td>cell one</td>
<td>cell two</td>
</tr>
</table>")
  = true.
Proof. vm_compute. reflexivity. Qed.

(* test_cross_compare_creole.py:26 test_typeface *)
Example conf_creole_061 : chk_c2h tabs4 (mkopts true (Some 1%Z) false) no_md
  (L "basics:
**//bold italics//**
//**bold italics**//
//This is **also** good.//

Creole 1.0 optional:
This is ##monospace## text.
This is ^^superscripted^^ text.
This is ,,subscripted,, text.
This is __underlined__ text.

own additions:
This is --small-- and this ~~strikeout~~ ;)")
  (L "<p>basics:<br />
<strong><i>bold italics</i></strong><br />
<i><strong>bold italics</strong></i><br />
<i>This is <strong>also</strong> good.</i></p>

<p>Creole 1.0 optional:<br />
This is <tt>monospace</tt> text.<br />
This is <sup>superscripted</sup> text.<br />
This is <sub>subscripted</sub> text.<br />
This is <u>underlined</u> text.</p>

<p>own additions:<br />
This is <small>small</small> and this <del>strikeout</del> ;)</p>")
  = true.
Proof. vm_compute. reflexivity. Qed.

(* test_cross_compare_creole.py:78 test_small *)
Example conf_creole_062 : chk_c2h tabs4 (mkopts true (Some 1%Z) false) no_md
  (L "no -- small
no // italics
no ** bold
no ## monospace
no ^^ superscripted
no ,, subscripted
no __ underline")
  (L "<p>no -- small<br />
no // italics<br />
no ** bold<br />
no ## monospace<br />
no ^^ superscripted<br />
no ,, subscripted<br />
no __ underline</p>")
  = true.
Proof. vm_compute. reflexivity. Qed.

(* test_cross_compare_creole.py:101 test_link *)
Example conf_creole_063 : chk_c2h tabs4 (mkopts true (Some 1%Z) false) no_md
  (L "this is [[/a internal]] link.
1 [[internal links|link A]] test.")
  (L "<p>this is <a href=""/a internal"">/a internal</a> link.<br />
1 <a href=""internal links"">link A</a> test.</p>")
  = true.
Proof. vm_compute. reflexivity. Qed.

(* test_cross_compare_creole.py:113 test_bolditalic_links *)
Example conf_creole_064 : chk_c2h tabs4 (mkopts true (Some 1%Z) false) no_md
  (L "//[[a internal]]//
**[[Shortcut2|a page2]]**
//**[[Shortcut3|a page3]]**//")
  (L "<p><i><a href=""a internal"">a internal</a></i><br />
<strong><a href=""Shortcut2"">a page2</a></strong><br />
<i><strong><a href=""Shortcut3"">a page3</a></strong></i></p>")
  = true.
Proof. vm_compute. reflexivity. Qed.

(* test_cross_compare_creole.py:127 test_pre_contains_braces *)
Example conf_creole_065 : chk_c2h tabs4 (mkopts true (Some 1%Z) false) no_md
  (L "=== Closing braces in nowiki:

{{{
if (x != NULL) {
  for (i = 0; i < size; i++) {
    if (x[i] > 0) {
      x[i]--;
  }}}
}}}")
  (L "<h3>Closing braces in nowiki:</h3>

<pre>
if (x != NULL) {
  for (i = 0; i &lt; size; i++) {
    if (x[i] &gt; 0) {
      x[i]--;
  }}}
</pre>")
  = true.
Proof. vm_compute. reflexivity. Qed.

(* test_cross_compare_creole.py:152 test_pre2 *)
Example conf_creole_066 : chk_c2h tabs4 (mkopts true (Some 1%Z) false) no_md
  (L "111

{{{
//This// does **not** get [[formatted]]
}}}
222

one

{{{
foo

bar
}}}
two")
  (L "<p>111</p>

<pre>
//This// does **not** get [[formatted]]
</pre>
<p>222</p>

<p>one</p>

<pre>
foo

bar
</pre>
<p>two</p>")
  = true.
Proof. vm_compute. reflexivity. Qed.

(* test_cross_compare_creole.py:187 test_pre *)
Example conf_creole_067 : chk_c2h tabs4 (mkopts true (Some 1%Z) false) no_md
  (L "start

{{{
* no list
<html escaped>
}}}
end")
  (L "<p>start</p>

<pre>
* no list
&lt;html escaped&gt;
</pre>
<p>end</p>")
  = true.
Proof. vm_compute. reflexivity. Qed.

(* test_cross_compare_creole.py:206 test_tt *)
Example conf_creole_068 : chk_c2h tabs4 (mkopts true (Some 1%Z) false) no_md
  (L "this is ##**strong** Teletyper## ;)")
  (L "<p>this is <tt><strong>strong</strong> Teletyper</tt> ;)</p>")
  = true.
Proof. vm_compute. reflexivity. Qed.

(* test_cross_compare_creole.py:213 test_no_inline_headline *)
Example conf_creole_069 : chk_c2h tabs4 (mkopts true (Some 1%Z) false) no_md
  (L "= Headline

=== **not** //parsed//

No == headline == or?")
  (L "<h1>Headline</h1>

<h3>**not** //parsed//</h3>

<p>No == headline == or?</p>")
  = true.
Proof. vm_compute. reflexivity. Qed.

(* test_cross_compare_creole.py:231 test_horizontal_rule *)
Example conf_creole_070 : chk_c2h tabs4 (mkopts true (Some 1%Z) false) no_md
  (L "one

----

two")
  (L "<p>one</p>

<hr />

<p>two</p>")
  = true.
Proof. vm_compute. reflexivity. Qed.

(* test_cross_compare_creole.py:246 test_bullet_list *)
Example conf_creole_071 : chk_c2h tabs4 (mkopts true (Some 1%Z) false) no_md
  (L "* Item 1
** Item 1.1
** a **bold** Item 1.2
* Item 2
** Item 2.1
*** [[a link Item 3.1]]
*** Force\\linebreak 3.2
*** item 3.3
*** item 3.4

up to five levels

* 1
** 2
*** 3
**** 4
***** 5")
  (L "<ul>
    <li>Item 1
    <ul>
        <li>Item 1.1</li>
        <li>a <strong>bold</strong> Item 1.2</li>
    </ul></li>
    <li>Item 2
    <ul>
        <li>Item 2.1
        <ul>
            <li><a href=""a link Item 3.1"">a link Item 3.1</a></li>
            <li>Force<br />
            linebreak 3.2</li>
            <li>item 3.3</li>
            <li>item 3.4</li>
        </ul></li>
    </ul></li>
</ul>
<p>up to five levels</p>

<ul>
    <li>1
    <ul>
        <li>2
        <ul>
            <li>3
            <ul>
                <li>4
                <ul>
                    <li>5</li>
                </ul></li>
            </ul></li>
        </ul></li>
    </ul></li>
</ul>")
  = true.
Proof. vm_compute. reflexivity. Qed.

(* test_cross_compare_creole.py:303 test_number_list *)
Example conf_creole_072 : chk_c2h tabs4 (mkopts true (Some 1%Z) false) no_md
  (L "# Item 1
## Item 1.1
## a **bold** Item 1.2
# Item 2
## Item 2.1
### [[a link Item 3.1]]
### Force\\linebreak 3.2
### item 3.3
### item 3.4

up to five levels

# 1
## 2
### 3
#### 4
##### 5")
  (L "<ol>
    <li>Item 1
    <ol>
        <li>Item 1.1</li>
        <li>a <strong>bold</strong> Item 1.2</li>
    </ol></li>
    <li>Item 2
    <ol>
        <li>Item 2.1
        <ol>
            <li><a href=""a link Item 3.1"">a link Item 3.1</a></li>
            <li>Force<br />
            linebreak 3.2</li>
            <li>item 3.3</li>
            <li>item 3.4</li>
        </ol></li>
    </ol></li>
</ol>
<p>up to five levels</p>

<ol>
    <li>1
    <ol>
        <li>2
        <ol>
            <li>3
            <ol>
                <li>4
                <ol>
                    <li>5</li>
                </ol></li>
            </ol></li>
        </ol></li>
    </ol></li>
</ol>")
  = true.
Proof. vm_compute. reflexivity. Qed.

(* test_cross_compare_creole.py:362 test_big_table *)
Example conf_creole_073 : chk_c2h tabs4 (mkopts true (Some 1%Z) false) no_md
  (L "A Table...

|= Headline  |= a other\\headline    |= the **big end**     |
| a cell     | a **big** cell        | **//bold italics//** |
| next\\line | No == headline == or? |                      |
| link test: | a [[/url/|link]] in   | a cell.              |
|            |                       | empty cells          |
...end")
  (L "<p>A Table...</p>

<table>
<tr>
    <th>Headline</th>
    <th>a other<br />
        headline</th>
    <th>the <strong>big end</strong></th>
</tr>
<tr>
    <td>a cell</td>
    <td>a <strong>big</strong> cell</td>
    <td><strong><i>bold italics</i></strong></td>
</tr>
<tr>
    <td>next<br />
        line</td>
    <td>No == headline == or?</td>
    <td></td>
</tr>
<tr>
    <td>link test:</td>
    <td>a <a href=""/url/"">link</a> in</td>
    <td>a cell.</td>
</tr>
<tr>
    <td></td>
    <td></td>
    <td>empty cells</td>
</tr>
</table>
<p>...end</p>")
  = true.
Proof. vm_compute. reflexivity. Qed.

(* test_cross_compare_creole.py:414 test_html_macro_unknown_nodes *)
Example conf_creole_074 : chk_c2h tabs4 (mkopts true (Some 1%Z) false) ex_md
  (L "111 <<html>><x><</html>>foo<<html>></x><</html>> 222
333<<html>><x foo1=""bar1""><</html>>foobar<<html>></x><</html>>444

555<<html>><x /><</html>>666")
  (L "<p>111 <x>foo</x> 222<br />
333<x foo1=""bar1"">foobar</x>444</p>

<p>555<x />666</p>")
  = true.
Proof. vm_compute. reflexivity. Qed.

(* test_cross_compare_creole.py:432 test_entities *)
Example conf_creole_075 : chk_c2h tabs4 (mkopts true (Some 1%Z) false) no_md
  (L "less-than sign: <
greater-than sign: >")
  (L "<p>less-than sign: &lt;<br />
greater-than sign: &gt;</p>")
  = true.
Proof. vm_compute. reflexivity. Qed.

