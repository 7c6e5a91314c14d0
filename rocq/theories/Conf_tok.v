(** Generated by tools/gen_tokconf.py.  Do not edit.
    The model of html.parser evaluated on random texts, compared with the standard library. *)
From Coq Require Import String List NArith ZArith Bool.
From Verif Require Import PyStr Utils HtmlTok.
Import ListNotations.
Open Scope N_scope.

Definition cases : list (str * (list tok * bool)) := [
  ((L "&#x<?p</script>&lt;/>" ++ [233] ++ [233] ++ L """h1z=""<script>"), ([TData (L "&#")], false));
  ((L "<3" ++ [233] ++ L "</p><p><script><STYLE ><STYLE >_"), ([TData (L "<"); TData (L "3" ++ [233]); TEnd (L "p"); TStart (L "p") []; TStart (L "script") []], false));
  (([9] ++ L "&#9"), ([TData ([9])], false));
  ((L "a</p>--/<p>pa"), ([TData (L "a"); TEnd (L "p"); TData (L "--/"); TStart (L "p") []; TData (L "pa")], false));
  ((L "<!]><!DOCTYPE<!"), ([], false));
  ((L "y='><!["), ([TData (L "y='>")], false));
  ((L "<!--<img src=""u"" />-->=</if]]>&<STYLE ><3&#x]]>"), ([TData (L "="); TEnd (L "if]]"); TData (L "&"); TStart (L "style") []], false));
  ((L ":;&lt;'>y='z=""_-<img src=""u"" />"), ([TData (L ":;"); TEntity (L "lt"); TData (L "'>y='z=""_-"); TStartEnd (L "img") [((L "src"), VStr (L "u"))]], false));
  (([10] ++ [9]), ([TData ([10] ++ [9])], false));
  ((L ":&amp&ampa"), ([TData (L ":"); TEntity (L "amp")], false));
  ((L "cdata[<"), ([TData (L "cdata[")], false));
  ((L "<script>'>&nbsp;" ++ [10] ++ L "&lt;y='&nbsp;<STYLE ></""h1B<STYLE >"), ([TStart (L "script") []], false));
  ((L "aif />41"), ([TData (L "aif />41")], false));
  (([0] ++ L "</ p</;"), ([TData ([0])], false));
  ((L "&"), ([], false));
  ((L "z=""" ++ [160] ++ L "]]>h1]"), ([TData (L "z=""" ++ [160] ++ L "]]>h1]")], false));
  ((L "<br/>-->"), ([TStartEnd (L "br") []; TData (L "-->")], false));
  ((L "<img src=""u"" />pifz="""), ([TStartEnd (L "img") [((L "src"), VStr (L "u"))]; TData (L "pifz=""")], false));
  ((L "]&a<3&#9<&amp41<!DOCTYPE"), ([TData (L "]"); TEntity (L "a"); TData (L "<"); TData (L "3"); TCharref (L "9"); TData (L "<"); TEntity (L "amp41")], false));
  ((L "pcdata[</p>!if&#p"), ([TData (L "pcdata["); TEnd (L "p"); TData (L "!if")], false));
  ((L "]]>"), ([TData (L "]]>")], false));
  ((L "]"), ([TData (L "]")], false));
  ((L "]><a href='&#65;p'&#x41;"), ([TData (L "]>")], false));
  ((L "</'</ style></"), ([], false));
  ((L "]]>cdata[p"), ([TData (L "]]>cdata[p")], false));
  ((L " "), ([TData (L " ")], false));
  ((L "</p>'>a!"), ([TEnd (L "p"); TData (L "'>a!")], false));
  ((L "]>foo" ++ [10] ++ L "&[<a href='<a href='<!<&nbsp;B&#9<script>"), ([TData (L "]>foo" ++ [10]); TData (L "&"); TData (L "["); TStart (L "a") [((L "href"), VStr (L "<a href=")); ((L "<!<&nbsp;b&#9<script"), VNone)]], false));
  ((L "<p>cdata[<3</ style>"), ([TStart (L "p") []; TData (L "cdata["); TData (L "<"); TData (L "3"); TEnd (L "style")], false));
  ((L "</p>" ++ [10] ++ L "-&B?>"), ([TEnd (L "p"); TData ([10] ++ L "-"); TEntity (L "B"); TData (L "?>")], false));
  ((L "y='&#X41;-->&#cdata[<&!-&#><!--:"), ([TData (L "y='"); TCharref (L "X41"); TData (L "-->")], false));
  ((L "<3--<a href=']cdata[</ pcdata[a</>"), ([TData (L "<"); TData (L "3--")], false));
  ((L ".z=""&#65;-->&#9"), ([TData (L ".z="""); TCharref (L "65"); TData (L "-->")], false));
  ((L ".</script>&#"), ([TData (L "."); TEnd (L "script")], false));
  ((L "y='<![/41?<a href='<br/></ p<!DOCTYPE&#x41;&amp"), ([TData (L "y='")], true));
  ((L "z=""]]>/>"), ([TData (L "z=""]]>/>")], false));
  ((L """&lt;</ style>]]>--<script>a&#<?<?"), ([TData (L """"); TEntity (L "lt"); TEnd (L "style"); TData (L "]]>--"); TStart (L "script") []], false));
  ((L "z=""if"), ([TData (L "z=""if")], false));
  ((L "</> "), ([TData (L " ")], false));
  ((L " &#x41;&#x41;<a href='" ++ [0] ++ L "p&<!DOCTYPE</ p"), ([TData (L " "); TCharref (L "x41"); TCharref (L "x41")], false));
  (([160] ++ L "&lt;&nbsp;foo" ++ [9] ++ L "&#X41;&#x&amp41"), ([TData ([160]); TEntity (L "lt"); TEntity (L "nbsp"); TData (L "foo" ++ [9]); TCharref (L "X41")], false));
  ((L "cdata[y='41<3"), ([TData (L "cdata[y='41"); TData (L "<"); TData (L "3")], false));
  ((L "&#65;'<!DOCTYPEx=<br/></p><!DOCTYPE"), ([TCharref (L "65"); TData (L "'"); TEnd (L "p")], false));
  ((L "</p></ p]>:&#x41;p!" ++ [9] ++ L "--65?cdata[&#x</"), ([TEnd (L "p"); TData (L ":"); TCharref (L "x41"); TData (L "p!" ++ [9] ++ L "--65?cdata[")], false));
  ((L "[&#]>" ++ [0] ++ L "z=""" ++ [0]), ([TData (L "[")], false));
  ((L "&amp</ p"), ([TEntity (L "amp")], false));
  ((L "/x=]]>" ++ [160] ++ L "B41foofoo" ++ [233]), ([TData (L "/x=]]>" ++ [160] ++ L "B41foofoo" ++ [233])], false));
  ((L " &amp&ampp</>if;--]]><!--y='p"), ([TData (L " "); TEntity (L "amp"); TEntity (L "ampp"); TData (L "if;--]]>")], false));
  ((L "<3:<STYLE >-->&lt;" ++ [0] ++ L "=<3B"), ([TData (L "<"); TData (L "3:"); TStart (L "style") []], false));
  ((L "/>]>/><!.<?<!DOCTYPE'>'"), ([TData (L "/>]>/>"); TData (L "'")], false));
  ((L "!</=&amp;<!--""foo" ++ [160] ++ L " <"), ([TData (L "!")], false));
  ((L "<br/>]&#65;B]>&#65;cdata[<STYLE >h1<3"), ([TStartEnd (L "br") []; TData (L "]"); TCharref (L "65"); TData (L "B]>"); TCharref (L "65"); TData (L "cdata["); TStart (L "style") []], false));
  ((L "&#xy='/."), ([], false));
  ((L "<p>65<img src=""u"" />"), ([TStart (L "p") []; TData (L "65"); TStartEnd (L "img") [((L "src"), VStr (L "u"))]], false));
  ((L "<y='" ++ [10] ++ L "<img src=""u"" />_"), ([TStartEnd (L "y='") [((L "<img"), VNone); ((L "src"), VStr (L "u"))]; TData (L "_")], false));
  ((L "[]]></ style>z=""<script>" ++ [10] ++ L "</B" ++ [0]), ([TData (L "[]]>"); TEnd (L "style"); TData (L "z="""); TStart (L "script") []], false));
  ((L "&#x41;&amp&#</p>-z=""&#cdata[p"), ([TCharref (L "x41"); TEntity (L "amp")], false));
  ((L "if&#65;</p>"), ([TData (L "if"); TCharref (L "65"); TEnd (L "p")], false));
  ((L "ay='&#x/>&#x" ++ [0] ++ L ".<!DOCTYPE!><?/><3<"), ([TData (L "ay='")], false));
  ((L "]>&#x41;&nbsp;<!DOCTYPE" ++ [10] ++ L "/>"), ([TData (L "]>"); TCharref (L "x41"); TEntity (L "nbsp")], false));
  ((L "a"), ([TData (L "a")], false));
  (([0]), ([TData ([0])], false));
  ((L "<!DOCTYPE" ++ [160] ++ L "]]>&nbsp;]]>a_""/><a href='><?</'"), ([TEntity (L "nbsp"); TData (L "]]>a_""/>")], false));
  ((L "<<script>h1</>:h1<STYLE >" ++ [9] ++ L "/></y='"), ([TData (L "<"); TStart (L "script") []], false));
  ((L "/<!--<3---?'" ++ [9] ++ L "y=''"), ([TData (L "/")], false));
  ((L "<!<3&#65;</>"), ([], false));
  ((L "&#65;a65;" ++ [9] ++ L "<br/>--<p>-->]> z=""-"), ([TCharref (L "65"); TData (L "a65;" ++ [9]); TStartEnd (L "br") []; TData (L "--"); TStart (L "p") []; TData (L "-->]> z=""-")], false));
  ((L "&nbsp;<script>foo</><ify='!<p>]>"), ([TEntity (L "nbsp"); TStart (L "script") []], false));
  ((L "&#&amp=<!--<!&amp" ++ [9] ++ L "/</ p</h141h1"), ([], false));
  ((L "&nbsp;" ++ [9] ++ L "<![<!--=:--]>"), ([TEntity (L "nbsp"); TData ([9])], true));
  ((L "<STYLE ><!DOCTYPE---&#9_'</p></p><br/></>&#65;</script>"), ([TStart (L "style") []], false));
  ((L "&nbsp;'>'"), ([TEntity (L "nbsp"); TData (L "'>'")], false));
  ((L "&#"), ([], false));
  ((L "<br/>" ++ [0] ++ [10] ++ L "&#X41;<!<h1" ++ [0]), ([TStartEnd (L "br") []; TData ([0] ++ [10]); TCharref (L "X41")], false));
  ((L " <img src=""u"" />y='>&""<img src=""u"" />]"), ([TData (L " "); TStartEnd (L "img") [((L "src"), VStr (L "u"))]; TData (L "y='>"); TData (L "&"); TData (L """"); TStartEnd (L "img") [((L "src"), VStr (L "u"))]; TData (L "]")], false));
  ((L "/></ style></p><!]]><script><br/><!--" ++ [160]), ([TData (L "/>"); TEnd (L "style"); TEnd (L "p"); TStart (L "script") []], false));
  ((L "<!"), ([], false));
  ((L "</-->foo</ style>" ++ [160] ++ L "</script>?aB<a href='&#x41;"), ([TData (L "foo"); TEnd (L "style"); TData ([160]); TEnd (L "script"); TData (L "?aB")], false));
  ((L "<![z="""""), ([], true));
  ((L "&#x &<!--y='/><br/>B<STYLE >--> &#9"), ([], false));
  ((L "&<a href='h1&nbsp;"), ([TData (L "&")], false));
  ((L "</p>" ++ [10] ++ L "<script><a href='"""), ([TEnd (L "p"); TData ([10]); TStart (L "script") []], false));
  ((L "foo_" ++ [160] ++ L "y='<img src=""u"" /></ p--"), ([TData (L "foo_" ++ [160] ++ L "y='"); TStartEnd (L "img") [((L "src"), VStr (L "u"))]], false));
  ((L "p>41<</ p "), ([TData (L "p>41"); TData (L "<")], false));
  ((L "&lt;" ++ [160] ++ L "</ style>" ++ [10] ++ L "<!--&#x"), ([TEntity (L "lt"); TData ([160]); TEnd (L "style"); TData ([10])], false));
  ((L "if&#x41;]>h1</script>"), ([TData (L "if"); TCharref (L "x41"); TData (L "]>h1"); TEnd (L "script")], false));
  ((L "<!--&nbsp;"), ([], false));
  (([0] ++ L "<img src=""u"" />]></<br/>[y='</p>Bfoo"), ([TData ([0]); TStartEnd (L "img") [((L "src"), VStr (L "u"))]; TData (L "]>"); TData (L "[y='"); TEnd (L "p"); TData (L "Bfoo")], false));
  ((L "&#X41;</ p" ++ [160] ++ L "</p>&B" ++ [9]), ([TCharref (L "X41"); TEntity (L "B"); TData ([9])], false));
  ((L "<a href='&#X41;" ++ [9]), ([], false));
  ((L "=&nbsp;--B]</script>'a?"), ([TData (L "="); TEntity (L "nbsp"); TData (L "--B]"); TEnd (L "script"); TData (L "'a?")], false));
  ((L "<br/>  "), ([TStartEnd (L "br") []; TData (L "  ")], false));
  ((L "z=""/>h1z="""), ([TData (L "z=""/>h1z=""")], false));
  ((L "&#x41;:<!&lt;&#65;"), ([TCharref (L "x41"); TData (L ":")], false));
  ((L "65& 41x=" ++ [9] ++ L ".&#65;&#x41;</script>" ++ [10] ++ L "<script><STYLE >"), ([TData (L "65"); TData (L "&"); TData (L " 41x=" ++ [9] ++ L "."); TCharref (L "65"); TCharref (L "x41"); TEnd (L "script"); TData ([10]); TStart (L "script") []], false));
  ((L "]h1>foo65'fooz=""<p><script>:41;-"), ([TData (L "]h1>foo65'fooz="""); TStart (L "p") []; TStart (L "script") []], false));
  ((L "if-<?'-->]</>" ++ [10] ++ L "</>&#X41;"), ([TData (L "if-"); TData (L "]"); TData ([10]); TCharref (L "X41")], false));
  ((L "</ p!<!--<a href='a</ p&#x41;<script></p></ p"), ([TEnd (L "p")], false));
  ((L "p'>Bh165_<a href='&#"), ([TData (L "p'>Bh165_")], false));
  ((L "if&]>cdata[!&amp:?</ style>]]><br/>-->"), ([TData (L "if"); TData (L "&"); TData (L "]>cdata[!"); TEntity (L "amp"); TData (L ":?"); TEnd (L "style"); TData (L "]]>"); TStartEnd (L "br") []; TData (L "-->")], false));
  ((L "x=<]>&#9&</ style>"), ([TData (L "x="); TData (L "<"); TData (L "]>"); TCharref (L "9"); TData (L "&"); TEnd (L "style")], false));
  ((L "<br/>?if<img src=""u"" /><STYLE >cdata[fooa"), ([TStartEnd (L "br") []; TData (L "?if"); TStartEnd (L "img") [((L "src"), VStr (L "u"))]; TStart (L "style") []], false));
  ((L "<?p]>"), ([], false));
  ((L "&#9a]]>&#X41;"), ([TData (L "&#")], false));
  ((L "[a "), ([TData (L "[a ")], false));
  ((L "if"), ([TData (L "if")], false));
  ((L "&#x/" ++ [9] ++ L "&lt;<STYLE >"), ([TData (L "&#")], false));
  ((L "/<!/><!_</> =&/&"), ([TData (L "/"); TData (L " ="); TData (L "&"); TData (L "/")], false));
  ((L "&lt;>]]]>x=<!--=&lt;=p]]>]>"), ([TEntity (L "lt"); TData (L ">]]]>x=")], false));
  (([0] ++ L "y='<!DOCTYPE"), ([TData ([0] ++ L "y='")], false));
  (([233] ++ L "y='<img src=""u"" />h1';/" ++ [233] ++ L "]/>"), ([TData ([233] ++ L "y='"); TStartEnd (L "img") [((L "src"), VStr (L "u"))]; TData (L "h1';/" ++ [233] ++ L "]/>")], false));
  (([10] ++ L "<a href='.'>&ampz=""/><!</script><<!DOCTYPE&#9"), ([TData ([10]); TStart (L "a") [((L "href"), VStr (L "."))]; TEntity (L "ampz"); TData (L "=""/>"); TData (L "<")], false));
  ((L "<3<!<!DOCTYPE--y='x=;<![B<!--]]>"), ([TData (L "<"); TData (L "3")], false));
  ((L "&nbsp;if<!DOCTYPE--a<![/]>aif;&#65;"), ([TEntity (L "nbsp"); TData (L "if"); TData (L "aif;"); TCharref (L "65")], false));
  ((L "_'a?&#x41;"), ([TData (L "_'a?"); TCharref (L "x41")], false));
  ((L """z=""&#X41;]>"), ([TData (L """z="""); TCharref (L "X41"); TData (L "]>")], false));
  ((L "'<?'><br/><3_"), ([TData (L "'"); TStartEnd (L "br") []; TData (L "<"); TData (L "3_")], false));
  ((L "<script>if[</.&#x41;;!</ p/>&nbsp;foo"), ([TStart (L "script") []], false));
  ((L "&#X41;foofoo</><script>.<!DOCTYPE=h1"), ([TCharref (L "X41"); TData (L "foofoo"); TStart (L "script") []], false));
  ((L "<STYLE ></B&#X41;</ p-z=""foo&amp&#z=""x=>"), ([TStart (L "style") []], false));
  ((L "<!cdata[<!cdata[&#x&<br/></>"), ([], false));
  ((L "<script>;a</>_" ++ [233] ++ L "-->_</ <!["), ([TStart (L "script") []], false));
  ((L "[." ++ [10] ++ L "a<3&amppfoo<!<!DOCTYPE</script><p> <"), ([TData (L "[." ++ [10] ++ L "a"); TData (L "<"); TData (L "3"); TEntity (L "amppfoo"); TStart (L "p") []; TData (L " ")], false));
  ((L "</ style>B &#9"), ([TEnd (L "style"); TData (L "B ")], false));
  ((L "&#x/>--&nbsp;&#x41;" ++ [160]), ([TData (L "&#")], false));
  ((L "&nbsp;<a href='a" ++ [9] ++ L "<!DOCTYPE"), ([TEntity (L "nbsp")], false));
  ((L "</ style><!--&nbsp;p"), ([TEnd (L "style")], false));
  ((L "-]>]<?" ++ [160]), ([TData (L "-]>]")], false));
  ((L "&nbsp;!=<STYLE >'B</><a href='<script>"), ([TEntity (L "nbsp"); TData (L "!="); TStart (L "style") []], false));
  (([0] ++ L "?_"), ([TData ([0] ++ L "?_")], false));
  ((L "<![:&#65;<a href='<p>"), ([], true));
  ((L "=/" ++ [233] ++ L "=]]>=" ++ [9] ++ L "&lt;x=" ++ [0] ++ L "<!--&#>foo"), ([TData (L "=/" ++ [233] ++ L "=]]>=" ++ [9]); TEntity (L "lt"); TData (L "x=" ++ [0])], false));
  ((L "/>z="""), ([TData (L "/>z=""")], false));
  ((L ";</p>" ++ [10] ++ [9] ++ L "<?foo"), ([TData (L ";"); TEnd (L "p"); TData ([10] ++ [9])], false));
  ((L "</'>h1&#65;" ++ [0]), ([TData (L "h1"); TCharref (L "65"); TData ([0])], false));
  ((L ":?</ p"), ([TData (L ":?")], false));
  ((L "65h1!?" ++ [9] ++ L "if!&#65;cdata[&#9<!--_</>" ++ [160]), ([TData (L "65h1!?" ++ [9] ++ L "if!"); TCharref (L "65"); TData (L "cdata["); TCharref (L "9")], false));
  ((L "Ba/>&lt;a"), ([TData (L "Ba/>"); TEntity (L "lt"); TData (L "a")], false));
  ((L "_?" ++ [10] ++ L "y='</p>'>"), ([TData (L "_?" ++ [10] ++ L "y='"); TEnd (L "p"); TData (L "'>")], false));
  ((L "_x=<?"), ([TData (L "_x=")], false));
  ((L "&#<?-x=-->if<br/></p>" ++ [0] ++ L "<a href='</>" ++ [0] ++ L "&#X41;"), ([TData (L "&#")], false));
  (([160] ++ L "_" ++ [10] ++ L "&amp&#65;y='" ++ [10] ++ L "41--></p><a href='-->&lt;</ p"), ([TData ([160] ++ L "_" ++ [10]); TEntity (L "amp"); TCharref (L "65"); TData (L "y='" ++ [10] ++ L "41-->"); TEnd (L "p")], false));
  ((L "--'>a"), ([TData (L "--'>a")], false));
  ((L "<br/>]><<img src=""u"" />x=<!DOCTYPE</>&#x</ style>65"), ([TStartEnd (L "br") []; TData (L "]>"); TData (L "<"); TStartEnd (L "img") [((L "src"), VStr (L "u"))]; TData (L "x=")], false));
  ((L ":& /></ style>&#9!&amp&#9""_?<x="), ([TData (L ":"); TData (L "&"); TData (L " />"); TEnd (L "style"); TCharref (L "9"); TData (L "!"); TEntity (L "amp"); TCharref (L "9"); TData (L """_?")], false));
  ((L "'<?" ++ [0] ++ L "h1]>41<br/>cdata[" ++ [10] ++ L "/><img src=""u"" />;<img src=""u"" />"), ([TData (L "'"); TData (L "41"); TStartEnd (L "br") []; TData (L "cdata[" ++ [10] ++ L "/>"); TStartEnd (L "img") [((L "src"), VStr (L "u"))]; TData (L ";"); TStartEnd (L "img") [((L "src"), VStr (L "u"))]], false));
  ((L "]>" ++ [233] ++ L "--</ p_<STYLE >" ++ [233] ++ L "&65<!DOCTYPEx=a"), ([TData (L "]>" ++ [233] ++ L "--"); TData ([233]); TData (L "&"); TData (L "65")], false));
  ((L "./Bx=[[<!DOCTYPE""/>&#x41;<![" ++ [9] ++ L "&#x"), ([TData (L "./Bx=[["); TCharref (L "x41")], true));
  ((L "&lt;&#<img src=""u"" />"), ([TEntity (L "lt")], false));
  ((L "&#65;&#65;]>][/&#x41;p<a href='ay=' <!---->"), ([TCharref (L "65"); TCharref (L "65"); TData (L "]>][/"); TCharref (L "x41"); TData (L "p"); TStart (L "a") [((L "href"), VStr (L "ay=")); ((L "<!----"), VNone)]], false));
  ((L "]</script>" ++ [10] ++ L "<a href='"), ([TData (L "]"); TEnd (L "script"); TData ([10])], false));
  ((L "<!--"), ([], false));
  ((L "&#x41;<STYLE ></p>if</---&amp]><!--"), ([TCharref (L "x41"); TStart (L "style") []], false));
  ((L " foo-&#9:" ++ [9] ++ L ".41<a href='<![]"), ([TData (L " foo-"); TCharref (L "9"); TData (L ":" ++ [9] ++ L ".41")], false));
  ((L "p]></ p&lt;<![65"), ([TData (L "p]>")], false));
  ((L "&#'--z=""<![-!"), ([], false));
  ((L "/>&lt;<a href='<3&a"), ([TData (L "/>"); TEntity (L "lt")], false));
  ((L "&#cdata[:<a href='</script>" ++ [9] ++ L "</script>h1" ++ [10] ++ L ";"), ([TData (L "&#")], false));
  ((L "!<script><!--<br/>" ++ [160] ++ L "41"), ([TData (L "!"); TStart (L "script") []], false));
  ((L "41if/>" ++ [0] ++ L "--]pB <a href='"), ([TData (L "41if/>" ++ [0] ++ L "--]pB ")], false));
  ((L "<?z=""<!DOCTYPE_x=<3;"), ([], false));
  ((L "&#9&nbsp;<!--<?y='<?&amp"), ([TCharref (L "9"); TEntity (L "nbsp")], false));
  ((L "&nbsp;<<p>]>&#"), ([TEntity (L "nbsp"); TData (L "<"); TStart (L "p") []; TData (L "]>")], false));
  ((L "/&"), ([TData (L "/")], false));
  ((L "</!cdata[/>&#x41;<br/><!&lt;&#X41;<365!"), ([TCharref (L "x41"); TStartEnd (L "br") []], false));
  ((L "<img src=""u"" />"), ([TStartEnd (L "img") [((L "src"), VStr (L "u"))]], false));
  ((L "/><?=-->/>]]>/<!DOCTYPEx=z="""), ([TData (L "/>"); TData (L "/>]]>/")], false));
  ((L "&#x&#X41;"), ([TData (L "&#")], false));
  ((L "<img src=""u"" />_&#X41;x=&#x41;""=<img src=""u"" /><br/>"), ([TStartEnd (L "img") [((L "src"), VStr (L "u"))]; TData (L "_"); TCharref (L "X41"); TData (L "x="); TCharref (L "x41"); TData (L """="); TStartEnd (L "img") [((L "src"), VStr (L "u"))]; TStartEnd (L "br") []], false));
  ((L "</p>/[h1"), ([TEnd (L "p"); TData (L "/[h1")], false));
  ((L "<?41[&#X41;:h1.]"), ([], false));
  ((L "<" ++ [9] ++ [160]), ([TData (L "<"); TData ([9] ++ [160])], false));
  ((L "<script>-]]>--[</script>" ++ [160] ++ L "<!--" ++ [10] ++ L "-&lt;=<script>p"), ([TStart (L "script") []; TData (L "-]]>--["); TEnd (L "script"); TData ([160])], false));
  ((L "><STYLE >y='&nbsp;><script></><![&nbsp;"), ([TData (L ">"); TStart (L "style") []], false));
  ((L "<script>:]></ p<![&nbsp;"), ([TStart (L "script") []], false));
  ((L "<br/>]>y='x=65&#X41;foo</ p&#65;<!"), ([TStartEnd (L "br") []; TData (L "]>y='x=65"); TCharref (L "X41"); TData (L "foo")], false));
  ((L "><script><"), ([TData (L ">"); TStart (L "script") []], false));
  ((L "x='if?" ++ [160] ++ L "</ style><!DOCTYPE<p>x=&#9&#x"), ([TData (L "x='if?" ++ [160]); TEnd (L "style"); TData (L "x="); TCharref (L "9")], false));
  ((L "65" ++ [160] ++ L "&nbsp;" ++ [233]), ([TData (L "65" ++ [160]); TEntity (L "nbsp"); TData ([233])], false));
  ((L """if41><!--"), ([TData (L """if41>")], false));
  ((L ";&lt;</>aif</>aa<script><B&#x&#"), ([TData (L ";"); TEntity (L "lt"); TData (L "aif"); TData (L "aa"); TStart (L "script") []], false));
  ((L "<br/>foo]&#X41;--></>&#9<365y='"), ([TStartEnd (L "br") []; TData (L "foo]"); TCharref (L "X41"); TData (L "-->"); TCharref (L "9"); TData (L "<"); TData (L "365y='")], false));
  ((L "<&nbsp;" ++ [160] ++ L "--&#65;" ++ [0] ++ L "&#9&#9x=65&#x"), ([TData (L "<"); TEntity (L "nbsp"); TData ([160] ++ L "--"); TCharref (L "65"); TData ([0]); TCharref (L "9"); TCharref (L "9"); TData (L "x=65")], false));
  ((L "&#9</p>foo"), ([TCharref (L "9"); TEnd (L "p"); TData (L "foo")], false));
  (([10] ++ L "<![</><!--<!--h1.x=&#9</script>p/>"), ([TData ([10])], true));
  ((L ";z=""</:&#&#x<!DOCTYPE/>>65'"), ([TData (L ";z="""); TData (L ">65'")], false));
  ((L "&#x]]>>h1"""), ([], false));
  ((L "-->&lt;:>]"), ([TData (L "-->"); TEntity (L "lt"); TData (L ":>]")], false));
  ((L "<!--&#""<65:&<br/>"), ([], false));
  ((L "]]>-x=" ++ [10] ++ L "a!" ++ [0] ++ L "&.if]>&lt;<?"), ([TData (L "]]>-x=" ++ [10] ++ L "a!" ++ [0]); TData (L "&"); TData (L ".if]>"); TEntity (L "lt")], false));
  ((L "<!--</p>&#x&#9&#x_</script> ""<a href='."), ([], false));
  ((L "]]><STYLE >&lt;41&</ p=&<![]>--65&#x41;"), ([TData (L "]]>"); TStart (L "style") []], false));
  ((L "]>cdata[" ++ [233] ++ L "41a.<a href='<" ++ [10] ++ L "z=""&#]>"), ([TData (L "]>cdata[" ++ [233] ++ L "41a.")], false));
  ((L "&amp</ p&#65;<p></script>h1h1" ++ [160] ++ L "x=[foo&nbsp;""_"), ([TEntity (L "amp"); TEnd (L "script"); TData (L "h1h1" ++ [160] ++ L "x=[foo"); TEntity (L "nbsp"); TData (L """_")], false));
  ((L "&#65;</script>y='" ++ [160]), ([TCharref (L "65"); TEnd (L "script"); TData (L "y='" ++ [160])], false));
  ((L "<p>"), ([TStart (L "p") []], false));
  ((L ":z=""<a href=']]>" ++ [9] ++ L "<a href=' cdata[<?"".</>"), ([TData (L ":z="""); TStartEnd (L "a") [((L "href"), VStr (L "]]>" ++ [9] ++ L "<a href=")); ((L "cdata[<?"".<"), VNone)]], false));
  ((L "<!y='" ++ [233] ++ L "]>&lt;" ++ [160] ++ L "&#x41; &amp]&#9</" ++ [9]), ([TEntity (L "lt"); TData ([160]); TCharref (L "x41"); TData (L " "); TEntity (L "amp"); TData (L "]"); TCharref (L "9")], false));
  ((L ">>"), ([TData (L ">>")], false));
  (([160] ++ L "B<script>&#<img src=""u"" />]</?h1"), ([TData ([160] ++ L "B"); TStart (L "script") []], false));
  ((L "&#65;<3_&#9<![<!--]>_--<!["), ([TCharref (L "65"); TData (L "<"); TData (L "3_"); TCharref (L "9")], true));
  ((L "?"), ([TData (L "?")], false));
  ((L "</script>_&amp&#65;'&#9</-->x=<STYLE ><<!DOCTYPE<"), ([TEnd (L "script"); TData (L "_"); TEntity (L "amp"); TCharref (L "65"); TData (L "'"); TCharref (L "9"); TData (L "x="); TStart (L "style") []], false));
  ((L "a" ++ [0] ++ L ";<script>&lt;[/>4165p6565"), ([TData (L "a" ++ [0] ++ L ";"); TStart (L "script") []], false));
  ((L "foo"), ([TData (L "foo")], false));
  ((L "&#:&#</script>/'></" ++ [233] ++ L "-->-<!&"), ([], false));
  ((L "</ style>&#65;</ p"), ([TEnd (L "style"); TCharref (L "65")], false));
  ((L " h1"), ([TData (L " h1")], false));
  (([160] ++ L "</><STYLE >h1&#65;&#x41;"), ([TData ([160]); TStart (L "style") []], false));
  ((L "<script></>""<img src=""u"" />]]>"), ([TStart (L "script") []], false));
  ((L "/><!DOCTYPE;&#65;<]]>B</ style><!" ++ [0] ++ L "cdata[<"), ([TData (L "/>"); TData (L "B"); TEnd (L "style")], false));
  ((L "</>41;<!DOCTYPEx=<script>=-;acdata[<img src=""u"" />"), ([TData (L "41;"); TData (L "=-;acdata["); TStartEnd (L "img") [((L "src"), VStr (L "u"))]], false));
  ((L "41 </script> &nbsp;=" ++ [10] ++ L "<?<!foo&#"), ([TData (L "41 "); TEnd (L "script"); TData (L " "); TEntity (L "nbsp"); TData (L "=" ++ [10])], false));
  ((L "/>/></ p<script>y=':<img src=""u"" />:<![<br/>&#41<3="), ([TData (L "/>/>"); TData (L "y=':"); TStartEnd (L "img") [((L "src"), VStr (L "u"))]; TData (L ":")], true));
  ((L "-]> <script>&#x-&h1<br/>/>"), ([TData (L "-]> "); TStart (L "script") []], false));
  (([10] ++ L "y='x=" ++ [233] ++ L "if" ++ [9]), ([TData ([10] ++ L "y='x=" ++ [233] ++ L "if" ++ [9])], false));
  ((L "&#65;</><img src=""u"" />" ++ [10] ++ L "<!--if=>"), ([TCharref (L "65"); TStartEnd (L "img") [((L "src"), VStr (L "u"))]; TData ([10])], false));
  ((L "&amp!" ++ [10] ++ L "<![41"), ([TEntity (L "amp"); TData (L "!" ++ [10])], true));
  ((L "41<?""&#X41;&amp<!--<![-</script><img src=""u"" /><!"), ([TData (L "41"); TStartEnd (L "img") [((L "src"), VStr (L "u"))]], false));
  ((L "]]>if</ p<p/<!DOCTYPE<!DOCTYPE"), ([TData (L "]]>if")], false));
  ((L "65<p>41x="), ([TData (L "65"); TStart (L "p") []; TData (L "41x=")], false));
  ((L "--><br/>]y='&lt;z=""]"), ([TData (L "-->"); TStartEnd (L "br") []; TData (L "]y='"); TEntity (L "lt"); TData (L "z=""]")], false));
  ((L """[cdata["), ([TData (L """[cdata[")], false));
  ((L "<p>]>!;&#x41;&#65;<!"), ([TStart (L "p") []; TData (L "]>!;"); TCharref (L "x41"); TCharref (L "65")], false));
  ((L "&#9&[<br/>["), ([TCharref (L "9"); TData (L "&"); TData (L "["); TStartEnd (L "br") []; TData (L "[")], false));
  ((L "--&lt;="), ([TData (L "--"); TEntity (L "lt"); TData (L "=")], false));
  ((L "y='<img src=""u"" />p" ++ [160] ++ L "</<![<br/>y=']></<!--ph1"), ([TData (L "y='"); TStartEnd (L "img") [((L "src"), VStr (L "u"))]; TData (L "p" ++ [160]); TData (L "y=']>")], false));
  ((L "-&amph1/>foo?<br/>p"), ([TData (L "-"); TEntity (L "amph1"); TData (L "/>foo?"); TStartEnd (L "br") []; TData (L "p")], false));
  ((L "41</script>_</p>" ++ [160] ++ L "<a href='&#x]>--&#x41;'>!"), ([TData (L "41"); TEnd (L "script"); TData (L "_"); TEnd (L "p"); TData ([160]); TStart (L "a") [((L "href"), VStr (L "&#x]>--A"))]; TData (L "!")], false));
  ((L "&nbsp;]>&#X41;&#x41;<STYLE >&#"), ([TEntity (L "nbsp"); TData (L "]>"); TCharref (L "X41"); TCharref (L "x41"); TStart (L "style") []], false));
  (([0] ++ L "><!&#]]></' " ++ [10] ++ L "]&#65;<script><?"), ([TData ([0] ++ L ">")], false));
  ((L "&lt;</ style>" ++ [160] ++ [233] ++ L "<script></ p<?" ++ [160] ++ L "&nbsp;<!DOCTYPE&#x&#"), ([TEntity (L "lt"); TEnd (L "style"); TData ([160] ++ [233]); TStart (L "script") []], false));
  ((L "</&<!y='[&#=<?"), ([], false));
  ((L "x=</ p.=</>/></script>65&lt;"), ([TData (L "x="); TData (L "/>"); TEnd (L "script"); TData (L "65"); TEntity (L "lt")], false));
  ((L "&#x41;</><STYLE ></script>&ampy='<![<STYLE ></>"), ([TCharref (L "x41"); TStart (L "style") []], false));
  ((L "<!DOCTYPE<&lt;z=""]]>B&nbsp;>"), ([TData (L "B"); TEntity (L "nbsp"); TData (L ">")], false));
  ((L "41&#x" ++ [10] ++ L "/><?</>z=""'&#9p-/"), ([TData (L "41")], false));
  (([10] ++ L "?]]>""" ++ [0] ++ L "&#x41;<p>""<img src=""u"" />"), ([TData ([10] ++ L "?]]>""" ++ [0]); TCharref (L "x41"); TStart (L "p") []; TData (L """"); TStartEnd (L "img") [((L "src"), VStr (L "u"))]], false));
  ((L "foo&#65; B&lt;" ++ [9] ++ L "[<p>&lt;></!</ style>]"), ([TData (L "foo"); TCharref (L "65"); TData (L " B"); TEntity (L "lt"); TData ([9] ++ L "["); TStart (L "p") []; TEntity (L "lt"); TData (L ">"); TData (L "]")], false));
  (([10] ++ L "41y='><script>_&amp&#x41;_&#x""" ++ [233]), ([TData ([10] ++ L "41y='>"); TStart (L "script") []], false));
  ((L "<!<!""<![-"), ([], false));
  ((L "/>;<&#<_"), ([TData (L "/>;"); TData (L "<")], false));
  ((L "<!foo<STYLE >"), ([], false));
  ((L "&#x41;"), ([TCharref (L "x41")], false));
  ((L "-->>""&#x41;/y='</script><<img src=""u"" /><br/>&#X41;<![[z="""), ([TData (L "-->>"""); TCharref (L "x41"); TData (L "/y='"); TEnd (L "script"); TData (L "<"); TStartEnd (L "img") [((L "src"), VStr (L "u"))]; TStartEnd (L "br") []; TCharref (L "X41")], true));
  ((L "<3</</script>foo?B" ++ [10]), ([TData (L "<"); TData (L "3"); TData (L "foo?B" ++ [10])], false));
  ((L "foo&#65;&nbsp;"), ([TData (L "foo"); TCharref (L "65"); TEntity (L "nbsp")], false));
  ((L "'&lt;41<p>" ++ [10] ++ L "&#65;<!--<![<y='"), ([TData (L "'"); TEntity (L "lt"); TData (L "41"); TStart (L "p") []; TData ([10]); TCharref (L "65")], false));
  ((L ">?]]><!DOCTYPE<3" ++ [160] ++ L "<STYLE >cdata[&lt;"), ([TData (L ">?]]>"); TData (L "cdata["); TEntity (L "lt")], false));
  ((L "<br/>>&amp]&#x41;/>&#z="":<br/><a"), ([TStartEnd (L "br") []; TData (L ">"); TEntity (L "amp"); TData (L "]"); TCharref (L "x41"); TData (L "/>")], false));
  ((L "!&lt;-z=""<!=p<script></x=&#65;"), ([TData (L "!"); TEntity (L "lt"); TData (L "-z=""")], false));
  ((L "z=""&#x<["), ([TData (L "z=""")], false));
  ((L "&#9"), ([], false));
  ((L "<script><!--foo<![h1<![</script>&#"), ([TStart (L "script") []; TData (L "<!--foo<![h1<!["); TEnd (L "script")], false));
  ((L "<?"""), ([], false));
  ((L "/&#X41;&#</script>=<![ =/><3"), ([TData (L "/"); TCharref (L "X41")], false));
  ((L "<!DOCTYPE'=<STYLE ><p>]>&#9"), ([TStart (L "p") []; TData (L "]>")], false));
  ((L "&#x41;<STYLE >_"), ([TCharref (L "x41"); TStart (L "style") []], false));
  ((L "=" ++ [9] ++ L "<!DOCTYPE" ++ [9] ++ L "<a href='<?y='z=""</>'>:" ++ [233]), ([TData (L "=" ++ [9]); TData (L "'>:" ++ [233])], false));
  ((L "</>'</ p]>&#X41;"), ([TData (L "'"); TCharref (L "X41")], false));
  ((L "[--><!DOCTYPE-</ p]>y='" ++ [9]), ([TData (L "[-->"); TData (L "y='" ++ [9])], false));
  ((L "<a href='"), ([], false));
  (([233] ++ L "<img src=""u"" />cdata[:-->cdata[&#if-"), ([TData ([233]); TStartEnd (L "img") [((L "src"), VStr (L "u"))]; TData (L "cdata[:-->cdata[")], false));
  ((L "</script>h1<!"), ([TEnd (L "script"); TData (L "h1")], false));
  ((L "=</ style>p""&#9/</ p:&nbsp;y='41'>/"), ([TData (L "="); TEnd (L "style"); TData (L "p"""); TCharref (L "9"); TData (L "/"); TData (L "/")], false));
  ((L "<img src=""u"" />[</<STYLE >/<?&lt;<!--&#x<img src=""u"" />"), ([TStartEnd (L "img") [((L "src"), VStr (L "u"))]; TData (L "["); TData (L "/")], false));
  ((L "</script> <a href='"), ([TEnd (L "script"); TData (L " ")], false));
  (([9]), ([TData ([9])], false));
  ((L "<STYLE >&" ++ [0] ++ L "]"), ([TStart (L "style") []], false));
  ((L "--><a href='h1_x=<script>]>" ++ [0]), ([TData (L "-->")], false));
  ((L "B&#&#<p><script><img src=""u"" />[cdata["), ([TData (L "B")], false));
  ((L "-->&#65;<3:</script>"), ([TData (L "-->"); TCharref (L "65"); TData (L "<"); TData (L "3:"); TEnd (L "script")], false));
  ((L "<!--</ style>" ++ [10] ++ L "."), ([], false));
  ((L "</script>" ++ [0] ++ [9] ++ L "--<img src=""u"" />" ++ [10]), ([TEnd (L "script"); TData ([0] ++ [9] ++ L "--"); TStartEnd (L "img") [((L "src"), VStr (L "u"))]; TData ([10])], false));
  ((L "<3<script>:p<p>p<br/>'.="), ([TData (L "<"); TData (L "3"); TStart (L "script") []], false));
  ((L "&#x&#<a href='</<a href='</>"), ([], false));
  ((L "=/<3[&#65;<![=<!--<![<!"), ([TData (L "=/"); TData (L "<"); TData (L "3["); TCharref (L "65")], true));
  ((L "</ style>/>>B ]>:"), ([TEnd (L "style"); TData (L "/>>B ]>:")], false));
  ((L "'>'>"), ([TData (L "'>'>")], false));
  ((L "&#X41;<a href='[cdata[]]>&#65;&nbsp;&a '["), ([TCharref (L "X41")], false));
  ((L "&lt;cdata[41'>"), ([TEntity (L "lt"); TData (L "cdata[41'>")], false));
  ((L "&lt;</ p?<p>h1'" ++ [0] ++ L "<a href='?</ style>p" ++ [9] ++ L "'h1"), ([TEntity (L "lt"); TData (L "h1'" ++ [0])], false));
  (([160] ++ [233] ++ L "p</"), ([TData ([160] ++ [233] ++ L "p")], false));
  ((L "<3:</"), ([TData (L "<"); TData (L "3:")], false));
  ((L "/>" ++ [10] ++ L "&nbsp;&amp"), ([TData (L "/>" ++ [10]); TEntity (L "nbsp")], false));
  ((L "<!--<a href='&amp" ++ [10] ++ L "&#9"), ([], false));
  ((L "<!--<script>&#65;&lt;foo_'><--&#X41;&#9</p>"), ([], false));
  ((L "&lt;" ++ [10] ++ L "> =</]"), ([TEntity (L "lt"); TData ([10] ++ L "> =")], false));
  ((L "']]>"), ([TData (L "']]>")], false));
  ((L ":'foo41<p><!--<?<br/>y='<p>"), ([TData (L ":'foo41"); TStart (L "p") []], false));
  ((L ">"), ([TData (L ">")], false));
  ((L "a/>!&""&#x&#x41;</41cdata[>"), ([TData (L "a/>!"); TData (L "&"); TData (L """"); TData (L "&#")], false));
  (([0] ++ L "65</""<script>"), ([TData ([0] ++ L "65")], false));
  ((L "x=<!cdata[<br/><script>&amp'x=<img src=""u"" /><!<?--></"), ([TData (L "x="); TStart (L "script") []], false));
  ((L """&#9" ++ [9] ++ L "]]--&#65;"), ([TData (L """"); TCharref (L "9"); TData ([9] ++ L "]]--"); TCharref (L "65")], false));
  ((L "]><img src=""u"" />x=]" ++ [233] ++ L "65:" ++ [160] ++ L "<3&h1&nbsp;" ++ [9] ++ L "!"), ([TData (L "]>"); TStartEnd (L "img") [((L "src"), VStr (L "u"))]; TData (L "x=]" ++ [233] ++ L "65:" ++ [160]); TData (L "<"); TData (L "3"); TEntity (L "h1"); TEntity (L "nbsp"); TData ([9] ++ L "!")], false));
  ((L "y='<3''><!DOCTYPE"), ([TData (L "y='"); TData (L "<"); TData (L "3''>")], false));
  ((L "&#&amp<p>"), ([], false));
  ((L "<!</script><![41?</p>&#41/>" ++ [233] ++ L "]><![><script>"), ([], true));
  ((L "</>'>--/"), ([TData (L "'>--/")], false));
  ((L "/"), ([TData (L "/")], false));
  ((L "</ style>"), ([TEnd (L "style")], false));
  ((L "&#65;</script>"), ([TCharref (L "65"); TEnd (L "script")], false));
  ((L "&#65;y='</script>&#x41;[h1.&#x&#X41;h1="), ([TCharref (L "65"); TData (L "y='"); TEnd (L "script"); TCharref (L "x41"); TData (L "[h1."); TData (L "&#")], false));
  ((L "[foo/<3</>""&lt;"), ([TData (L "[foo/"); TData (L "<"); TData (L "3"); TData (L """"); TEntity (L "lt")], false));
  ((L "z=""&nbsp;]>&nbsp;41." ++ [9] ++ [233] ++ L "</>" ++ [233] ++ L "-->"), ([TData (L "z="""); TEntity (L "nbsp"); TData (L "]>"); TEntity (L "nbsp"); TData (L "41." ++ [9] ++ [233]); TData ([233] ++ L "-->")], false));
  ((L "<]></>"), ([TData (L "<"); TData (L "]>")], false));
  ((L "<p>:<?z=""</script>p&#X41;"), ([TStart (L "p") []; TData (L ":"); TData (L "p"); TCharref (L "X41")], false));
  ((L "<a href='?-]]>?&#X41;</ p" ++ [10] ++ L "]]><?</script>"), ([], false));
  ((L "&amp&#x41;B="), ([TEntity (L "amp"); TCharref (L "x41"); TData (L "B=")], false));
  ((L "'</><script>&#x41;<img src=""u"" />--&amp&#X41;[<p>-?"), ([TData (L "'"); TStart (L "script") []], false));
  ((L "'>::--" ++ [233] ++ L "</>"), ([TData (L "'>::--" ++ [233])], false));
  ((L "[&z=""?&#x41;" ++ [10] ++ L "]>foo'>if"), ([TData (L "["); TEntity (L "z"); TData (L "=""?"); TCharref (L "x41"); TData ([10] ++ L "]>foo'>if")], false));
  ((L "<!DOCTYPE&#9"), ([], false));
  ((L "-]><=><!&#x41;</ p"), ([TData (L "-]>"); TData (L "<"); TData (L "=>")], false));
  ((L "??--]]>z=""-a"), ([TData (L "??--]]>z=""-a")], false));
  ((L "</>&amp&amp<!&lt;z=""<!["), ([TEntity (L "amp"); TEntity (L "amp")], false));
  ((L "x=""'<![""<a href='<![&#941" ++ [233] ++ L "?=-"), ([TData (L "x=""'")], true));
  ((L "<STYLE >'></script>&nbsp;</ style>_41<!--a&#x"), ([TStart (L "style") []; TData (L "'></script>&nbsp;"); TEnd (L "style"); TData (L "_41")], false));
  ((L ":[&#65;h1Bz=""[&#9<_]]>" ++ [0]), ([TData (L ":["); TCharref (L "65"); TData (L "h1Bz=""["); TCharref (L "9"); TData (L "<"); TData (L "_]]>" ++ [0])], false));
  ((L """41fooif</ style></p>"), ([TData (L """41fooif"); TEnd (L "style"); TEnd (L "p")], false));
  ((L "B<a href='<br/>&nbsp;>&</ style><script>" ++ [10] ++ L "<br/>"), ([TData (L "B")], false));
  ((L """_"), ([TData (L """_")], false));
  (([10] ++ L ".</p>h1&nbsp;:'"), ([TData ([10] ++ L "."); TEnd (L "p"); TData (L "h1"); TEntity (L "nbsp"); TData (L ":'")], false));
  ((L "&nbsp;a?=&nbsp;y='"), ([TEntity (L "nbsp"); TData (L "a?="); TEntity (L "nbsp"); TData (L "y='")], false));
  ((L """--<!--]]>B " ++ [0] ++ L "<img src=""u"" />/>"), ([TData (L """--")], false));
  ((L "<!DOCTYPE>'<?[!:"), ([TData (L "'")], false));
  ((L "65</"), ([TData (L "65")], false));
  ((L "/" ++ [0] ++ L "-pfoo" ++ [233] ++ L ".py='<br/>.</<3"), ([TData (L "/" ++ [0] ++ L "-pfoo" ++ [233] ++ L ".py='"); TStartEnd (L "br") []; TData (L ".")], false));
  ((L "]h1cdata[."), ([TData (L "]h1cdata[.")], false));
  (([0] ++ L "&#9/']><br/>x=[cdata['>"), ([TData ([0]); TCharref (L "9"); TData (L "/']>"); TStartEnd (L "br") []; TData (L "x=[cdata['>")], false));
  ((L "-->;&lt;z=""x=<!"""), ([TData (L "-->;"); TEntity (L "lt"); TData (L "z=""x=")], false));
  ((L "=x='" ++ [160] ++ L "!</p>p_<br/><STYLE >"), ([TData (L "=x='" ++ [160] ++ L "!"); TEnd (L "p"); TData (L "p_"); TStartEnd (L "br") []; TStart (L "style") []], false));
  ((L "<STYLE >["), ([TStart (L "style") []], false));
  ((L "&#X41;<3<a href='<!--"), ([TCharref (L "X41"); TData (L "<"); TData (L "3")], false));
  ((L "--->]></-<a href=''<!DOCTYPE&#65;" ++ [0] ++ L "[4165&#9"), ([TData (L "--->]>")], false));
  ((L "&#65;&#X41;</p>="), ([TCharref (L "65"); TCharref (L "X41"); TEnd (L "p"); TData (L "=")], false));
  ((L "<STYLE >p]</h1&nbsp;if/>a" ++ [10] ++ L "<br/>"), ([TStart (L "style") []], false));
  ((L "--<3-<STYLE >h1&#65;]]>--><![</>"), ([TData (L "--"); TData (L "<"); TData (L "3-"); TStart (L "style") []], false));
  ((L "<"), ([], false));
  ((L "&#65;if&#9&lt;</script>&#65;foo"), ([TCharref (L "65"); TData (L "if"); TCharref (L "9"); TEntity (L "lt"); TEnd (L "script"); TCharref (L "65"); TData (L "foo")], false));
  ((L " <3" ++ [233] ++ L "/>"), ([TData (L " "); TData (L "<"); TData (L "3" ++ [233] ++ L "/>")], false));
  ((L "41</!"), ([TData (L "41")], false));
  ((L "foo&lt;&#x41;</script>''>><y='&#9<?<!"), ([TData (L "foo"); TEntity (L "lt"); TCharref (L "x41"); TEnd (L "script"); TData (L "''>>")], false));
  ((L "!a<![h1</p>z=""]"), ([TData (L "!a")], true));
  ((L "B--&#x&#65;<STYLE >&nbsp;<3</</>]]>"), ([TData (L "B--"); TData (L "&#")], false));
  ((L "</&#x41;<script><script>]]>&lt;&#9"), ([TStart (L "script") []], false));
  ((L "<?;<p>foo<!;&amp"), ([TData (L "foo")], false));
  ((L "</y=']>/&amp&#9B&#x41;'"), ([TEnd (L "y=']"); TData (L "/"); TEntity (L "amp"); TData (L "&#")], false));
  ((L "[="), ([TData (L "[=")], false));
  ((L "B<![&#X41;]]>]]>/>=>-->"), ([TData (L "B")], true));
  ((L "</>&ampcdata[&lt;foo&#9:<!--"), ([TEntity (L "ampcdata"); TData (L "["); TEntity (L "lt"); TData (L "foo"); TCharref (L "9"); TData (L ":")], false));
  ((L "][x=</ style>'</script><![&#</>]>-->foo"), ([TData (L "][x="); TEnd (L "style"); TData (L "'"); TEnd (L "script")], true));
  ((L "</ p"), ([], false));
  ((L "<!--<!" ++ [0] ++ L "''y='h1</ style>&ampx=" ++ [160] ++ [10] ++ L "&#65;'>"), ([], false));
  ((L "41--!" ++ [10] ++ [10] ++ L ":</'<img src=""u"" />h1</ p" ++ [10]), ([TData (L "41--!" ++ [10] ++ [10] ++ L ":"); TData (L "h1")], false));
  (([0] ++ L "</ style>-->" ++ [0] ++ L "&#x41;"), ([TData ([0]); TEnd (L "style"); TData (L "-->" ++ [0]); TCharref (L "x41")], false));
  ((L "&amp&#x41;]<!:</ p&#9<br/>B]]>'"), ([TEntity (L "amp"); TCharref (L "x41"); TData (L "]"); TData (L "B]]>'")], false));
  ((L "<br/>if&amp"), ([TStartEnd (L "br") []; TData (L "if")], false));
  (([0] ++ L "'!</ pp" ++ [10] ++ L "a" ++ [10] ++ L "&&lt;["), ([TData ([0] ++ L "'!")], false));
  ((L "':"), ([TData (L "':")], false));
  ((L "<STYLE >.&#<STYLE ></p>a"), ([TStart (L "style") []], false));
  ((L "<//>--<!DOCTYPE<STYLE >y='y='<!DOCTYPE<//>;"""), ([TData (L "--"); TData (L "y='y='"); TData (L ";""")], false));
  ((L "&#9<p>y='z=""</script>;&#X41;&#x41;"), ([TCharref (L "9"); TStart (L "p") []; TData (L "y='z="""); TEnd (L "script"); TData (L ";"); TCharref (L "X41"); TCharref (L "x41")], false));
  ((L "?:</" ++ [233] ++ L "&amp</p>]>if"), ([TData (L "?:"); TData (L "]>if")], false));
  ((L "<a href='&#x41;&amp-'>'>foo"), ([TStart (L "a") [((L "href"), VStr (L "A&-"))]; TData (L "'>foo")], false));
  ((L "h1<STYLE >&nbsp;/>--h1</>;" ++ [0] ++ L "-<p>"), ([TData (L "h1"); TStart (L "style") []], false));
  ((L "B&<3" ++ [9] ++ L "-->y='"), ([TData (L "B"); TData (L "&"); TData (L "<"); TData (L "3" ++ [9] ++ L "-->y='")], false));
  ((L "?B<!DOCTYPE</ style></p>"), ([TData (L "?B"); TEnd (L "p")], false));
  ((L """cdata[?" ++ [10] ++ L "_-</p>-41"), ([TData (L """cdata[?" ++ [10] ++ L "_-"); TEnd (L "p"); TData (L "-41")], false));
  ((L "<img src=""u"" /><!"), ([TStartEnd (L "img") [((L "src"), VStr (L "u"))]], false));
  ((L "&#41<a href='if&.'>/>&#9"), ([TCharref (L "41"); TStart (L "a") [((L "href"), VStr (L "if&."))]; TData (L "/>")], false));
  ((L "&#65;" ++ [233] ++ L "] " ++ [233] ++ L ";&amp?if'>"), ([TCharref (L "65"); TData ([233] ++ L "] " ++ [233] ++ L ";"); TEntity (L "amp"); TData (L "?if'>")], false));
  ((L "]]>fooz=""<?41<br/>_]>"), ([TData (L "]]>fooz="""); TData (L "_]>")], false));
  ((L ":-<p>]<?a'></script><!DOCTYPE<!" ++ [10] ++ [160] ++ L "<?" ++ [0]), ([TData (L ":-"); TStart (L "p") []; TData (L "]"); TEnd (L "script")], false));
  ((L "y='<!--&nbsp;</ style>"), ([TData (L "y='")], false));
  ((L "foo<?<p><!DOCTYPE--></]]></><br/>""&"), ([TData (L "foo"); TStartEnd (L "br") []; TData (L """")], false));
  ((L "<STYLE >.&lt;<!--&#X41;</p>6565-&nbsp;"), ([TStart (L "style") []], false));
  ((L "<STYLE ></p><65"), ([TStart (L "style") []], false));
  ((L ";" ++ [160] ++ L "&#x41;" ++ [9] ++ L "_&#9</p>&#9<a href='</ style></'>/>"), ([TData (L ";" ++ [160]); TCharref (L "x41"); TData ([9] ++ L "_"); TCharref (L "9"); TEnd (L "p"); TCharref (L "9"); TStart (L "a") [((L "href"), VStr (L "</ style></"))]; TData (L "/>")], false));
  ((L ">]></ p<script>&#X41;&#65;x="), ([TData (L ">]>"); TCharref (L "X41"); TCharref (L "65"); TData (L "x=")], false));
  ((L "<?y='&#9&#x41;--&#65;"), ([], false));
  (([233] ++ L "<!cdata[<STYLE >&lt;y='"), ([TData ([233]); TEntity (L "lt"); TData (L "y='")], false));
  ((L "'Bif<3z=""[&lt;"), ([TData (L "'Bif"); TData (L "<"); TData (L "3z=""["); TEntity (L "lt")], false));
  ((L "<STYLE ></p>---'<<![;</script>B"), ([TStart (L "style") []], false));
  ((L "/-->.<p>"), ([TData (L "/-->."); TStart (L "p") []], false));
  ((L "<41&.<!--]]>-&#65;" ++ [9]), ([TData (L "<"); TData (L "41"); TData (L "&"); TData (L ".")], false));
  ((L "/>h1<!--</&#x41;</script>y='" ++ [10] ++ [233] ++ L "<img src=""u"" /><STYLE >a<3p"), ([TData (L "/>h1")], false));
  ((L "&lt;<script><![<STYLE ><img src=""u"" />"), ([TEntity (L "lt"); TStart (L "script") []], false));
  ((L "&#x41<script><img src=""u"" />p<?>foo]><![>"), ([TCharref (L "x41"); TStart (L "script") []], false));
  (([0] ++ L "/>a&lt;"), ([TData ([0] ++ L "/>a"); TEntity (L "lt")], false));
  ((L "-->p/><script><341<><p>!</script>"), ([TData (L "-->p/>"); TStart (L "script") []; TData (L "<341<><p>!"); TEnd (L "script")], false));
  ((L "]><![&lt;--B'"), ([TData (L "]>")], true));
  ((L "y='."), ([TData (L "y='.")], false));
  ((L "[<3" ++ [233] ++ L "z=""&#x41;<y='['><3"), ([TData (L "["); TData (L "<"); TData (L "3" ++ [233] ++ L "z="""); TCharref (L "x41"); TStart (L "y='['") []; TData (L "<"); TData (L "3")], false));
  ((L "<<STYLE >"), ([TData (L "<"); TStart (L "style") []], false));
  ((L "y='if" ++ [10] ++ L "=]<STYLE ><STYLE >65&#9]>]]>&nbsp;?'>"), ([TData (L "y='if" ++ [10] ++ L "=]"); TStart (L "style") []], false));
  ((L "if""&#x41;"), ([TData (L "if"""); TCharref (L "x41")], false));
  ((L "_</p>cdata[&#x/>acdata[&#x" ++ [10] ++ L "<br/><p><br/><!--<script>"), ([TData (L "_"); TEnd (L "p"); TData (L "cdata[")], false));
  ((L "_h1&nbsp;<script>65&=&lt;--"), ([TData (L "_h1"); TEntity (L "nbsp"); TStart (L "script") []], false));
  ((L "<a href='pa" ++ [10] ++ L "[<STYLE >&#9<STYLE >h165"), ([], false));
  (([0] ++ L "&#x_]]></p>" ++ [233] ++ [10] ++ L "41[]>cdata["), ([TData ([0])], false));
  ((L "&</ pif</ style>&#x41;<?<!DOCTYPE<STYLE >-->.;" ++ [233]), ([TData (L "&"); TCharref (L "x41"); TData (L "-->.;" ++ [233])], false));
  ((L "&#65;<!--x=z=""&#9B&nbsp;" ++ [233] ++ L "&#9"), ([TCharref (L "65")], false));
  ((L "h1<![<script>;"), ([TData (L "h1")], true));
  ((L "<a href='" ++ [160]), ([], false));
  ((L "&#9/>/>"), ([TCharref (L "9"); TData (L "/>/>")], false));
  ((L "<3y='_B.&#x<img src=""u"" />&lt;"), ([TData (L "<"); TData (L "3y='_B."); TData (L "&#")], false));
  ((L "'if" ++ [10] ++ L "&lt;&#x</"), ([TData (L "'if" ++ [10]); TEntity (L "lt")], false));
  ((L "</>y='"), ([TData (L "y='")], false));
  ((L "</[</ style>x=</ p<![-" ++ [160] ++ L "<!DOCTYPE]]>'"), ([TData (L "x="); TData (L "'")], false));
  ((L "/</if<!--'p"), ([TData (L "/")], false));
  ((L "]]>!<;" ++ [10] ++ L "]]>cdata[foo<img src=""u"" /><3<p>="), ([TData (L "]]>!"); TData (L "<"); TData (L ";" ++ [10] ++ L "]]>cdata[foo"); TStartEnd (L "img") [((L "src"), VStr (L "u"))]; TData (L "<"); TData (L "3"); TStart (L "p") []; TData (L "=")], false));
  ((L "]>if<STYLE >&</script>&#X41;:--></>"), ([TData (L "]>if"); TStart (L "style") []], false));
  ((L "&#65;&lt;/></ style>'--<!/>!"), ([TCharref (L "65"); TEntity (L "lt"); TData (L "/>"); TEnd (L "style"); TData (L "'--"); TData (L "!")], false));
  ((L "65]&nbsp;<img src=""u"" /><" ++ [10] ++ L ">h1" ++ [160]), ([TData (L "65]"); TEntity (L "nbsp"); TStartEnd (L "img") [((L "src"), VStr (L "u"))]; TData (L "<"); TData ([10] ++ L ">h1" ++ [160])], false));
  ((L ">'y='p&nbsp;<p>"), ([TData (L ">'y='p"); TEntity (L "nbsp"); TStart (L "p") []], false));
  ((L "<?-&lt;cdata[&nbsp;B'>65--" ++ [0] ++ L "-"), ([TData (L "65--" ++ [0] ++ L "-")], false));
  ((L "B</>if<p><script>65--><!DOCTYPEcdata[<?"), ([TData (L "B"); TData (L "if"); TStart (L "p") []; TStart (L "script") []], false));
  ((L "h1]]></=" ++ [160] ++ L "-B<a href='x=/><!cdata[y='&lt;"), ([TData (L "h1]]>")], false));
  ((L "<!<3" ++ [160] ++ L "-->&#X41;[ --'<!DOCTYPE"), ([TCharref (L "X41"); TData (L "[ --'")], false));
  ((L "]<!DOCTYPE<"), ([TData (L "]")], false));
  ((L "a[fooy='"), ([TData (L "a[fooy='")], false));
  ((L "y='> "), ([TData (L "y='> ")], false));
  ((L "&#9<?<3"), ([TCharref (L "9")], false));
  ((L "&#65;><br/><!--""&nbsp;foo&#9<!--"), ([TCharref (L "65"); TData (L ">"); TStartEnd (L "br") []], false));
  ((L "</ p:if"), ([], false));
  ((L "cdata[-:'&&]>41" ++ [0] ++ L "</ p&#X41;<br/><!"), ([TData (L "cdata[-:'"); TData (L "&"); TData (L "&"); TData (L "]>41" ++ [0])], false));
  ((L "</>&#x41;" ++ [10] ++ L "/>?"), ([TCharref (L "x41"); TData ([10] ++ L "/>?")], false));
  ((L "</p>'p]!&#" ++ [9]), ([TEnd (L "p"); TData (L "'p]!")], false));
  ((L "<img src=""u"" /></"), ([TStartEnd (L "img") [((L "src"), VStr (L "u"))]], false));
  ((L "<STYLE >]<!DOCTYPEz=""a" ++ [9] ++ L "B&lt;"), ([TStart (L "style") []], false));
  ((L "<a href='&#965<?</script>&#X41;B&#x41;</>'>]B&#x&#x41;"), ([TStart (L "a") [((L "href"), VStr ([965] ++ L "<?</script>ABA</>"))]; TData (L "]B"); TData (L "&#")], false));
  (([160] ++ L "<!DOCTYPE_p;&#9""<!DOCTYPEp<![if_-"), ([TData ([160])], false));
  ((L "&#Bif<a href='</script>;z=""<STYLE ><![" ++ [0] ++ L "<a href='<script>-"), ([TData (L "&#")], false));
  ((L "41</p>_--]>--;/></</ p"), ([TData (L "41"); TEnd (L "p"); TData (L "_--]>--;/>")], false));
  ((L "]>'><!!"), ([TData (L "]>'>")], false));
  ((L "/></ style>foo]41</p><STYLE >.<!--"), ([TData (L "/>"); TEnd (L "style"); TData (L "foo]41"); TEnd (L "p"); TStart (L "style") []], false));
  ((L "65_h1</ p&#65;z=""&#65;" ++ [160] ++ L "<!--;/""<?/"), ([TData (L "65_h1")], false));
  ((L "</ style>&--" ++ [10] ++ L "</ style><br/>foo</ p]>"), ([TEnd (L "style"); TData (L "&"); TData (L "--" ++ [10]); TEnd (L "style"); TStartEnd (L "br") []; TData (L "foo")], false));
  ((L "<img src=""u"" /></ style></ style><p>&amp !<!DOCTYPE&#X41;y='&#9<!--"), ([TStartEnd (L "img") [((L "src"), VStr (L "u"))]; TEnd (L "style"); TEnd (L "style"); TStart (L "p") []; TEntity (L "amp"); TData (L " !")], false));
  ((L "?<?<br/>&#x41;:&x=" ++ [233] ++ [160] ++ L "<![cdata["), ([TData (L "?"); TCharref (L "x41"); TData (L ":"); TEntity (L "x"); TData (L "=" ++ [233] ++ [160])], false));
  ((L "<3<STYLE >" ++ [160] ++ L "</ style>if= '&#9 &</ style><!DOCTYPE"), ([TData (L "<"); TData (L "3"); TStart (L "style") []; TData ([160]); TEnd (L "style"); TData (L "if= '"); TCharref (L "9"); TData (L " "); TData (L "&"); TEnd (L "style")], false));
  ((L "</ style>-</script></_" ++ [160] ++ L ":<img src=""u"" />if<!"), ([TEnd (L "style"); TData (L "-"); TEnd (L "script"); TData (L "if")], false));
  ((L "]_" ++ [233]), ([TData (L "]_" ++ [233])], false));
  ((L "</" ++ [10] ++ L "_</ style>!65" ++ [0] ++ L "]]>a &#X41;<STYLE ></ style>cdata["), ([TData (L "!65" ++ [0] ++ L "]]>a "); TCharref (L "X41"); TStart (L "style") []; TEnd (L "style"); TData (L "cdata[")], false));
  ((L ">z="""), ([TData (L ">z=""")], false));
  ((L "<a href='&[?""" ++ [10] ++ L "<!DOCTYPE.&nbsp;</p>:cdata[]><a href='"), ([], false));
  ((L "]>:;<img src=""u"" />" ++ [160] ++ L "["":&amp.a"";x="), ([TData (L "]>:;"); TStartEnd (L "img") [((L "src"), VStr (L "u"))]; TData ([160] ++ L "["":"); TEntity (L "amp.a"); TData (L """;x=")], false));
  ((L "h1cdata[</p><br/>"), ([TData (L "h1cdata["); TEnd (L "p"); TStartEnd (L "br") []], false));
  (([9] ++ L "<a href='&#65;if<a href='" ++ [10] ++ L "&lt;<!DOCTYPEh1'>'>&#9&#"), ([TData ([9]); TStart (L "a") [((L "href"), VStr (L "Aif<a href=")); ((L "&lt;<!doctypeh1'"), VNone)]; TData (L "'>"); TCharref (L "9")], false));
  ((L "x=<?<br/>?x="), ([TData (L "x="); TData (L "?x=")], false));
  ((L "-->"), ([TData (L "-->")], false));
  (([10] ++ L "ax=&#x&nbsp;" ++ [160] ++ L "&#x&lt;&#'</z="""), ([TData ([10] ++ L "ax="); TData (L "&#")], false));
  ((L "B<img src=""u"" />:'>&nbsp; p/"), ([TData (L "B"); TStartEnd (L "img") [((L "src"), VStr (L "u"))]; TData (L ":'>"); TEntity (L "nbsp"); TData (L " p/")], false));
  ((L "65:" ++ [10] ++ L "&#65;"), ([TData (L "65:" ++ [10]); TCharref (L "65")], false));
  ((L "65</ style><!--" ++ [10] ++ L "<3"), ([TData (L "65"); TEnd (L "style")], false));
  ((L ">'>>?<STYLE >foo</ style><!--p&nbsp;<?."), ([TData (L ">'>>?"); TStart (L "style") []; TData (L "foo"); TEnd (L "style")], false));
  ((L "&#65;</script>&#65;><!DOCTYPE<script>&#X41;]]>& "), ([TCharref (L "65"); TEnd (L "script"); TCharref (L "65"); TData (L ">"); TCharref (L "X41"); TData (L "]]>"); TData (L "&"); TData (L " ")], false));
  ((L "<![</ p"), ([], true));
  ((L "</"), ([], false));
  ((L "41" ++ [0] ++ L "</><p><!DOCTYPE"), ([TData (L "41" ++ [0]); TStart (L "p") []], false));
  (([160] ++ L "B</&#-->"), ([TData ([160] ++ L "B")], false));
  (([233] ++ L "<STYLE >y='&#x"), ([TData ([233]); TStart (L "style") []], false));
  ((L "'<br/><![a-->"), ([TData (L "'"); TStartEnd (L "br") []], true));
  ((L "!&#65;" ++ [9] ++ L "<!--!</p></ style>&#x"), ([TData (L "!"); TCharref (L "65"); TData ([9])], false));
  ((L "<!DOCTYPE" ++ [9] ++ L "> &lt;</ p&nbsp;" ++ [0] ++ L "<!<script></script>""&#x41;<!["), ([TData (L " "); TEntity (L "lt"); TEnd (L "script"); TData (L """"); TCharref (L "x41")], false));
  ((L "--" ++ [0] ++ [10] ++ L "x=65y='!<p>z=""=['<p>"), ([TData (L "--" ++ [0] ++ [10] ++ L "x=65y='!"); TStart (L "p") []; TData (L "z=""=['"); TStart (L "p") []], false));
  ((L "&#x]]" ++ [233] ++ L "<!DOCTYPE" ++ [233] ++ L "&#x--;"), ([TData (L "&#")], false));
  ((L "<br/><!DOCTYPE:_ "), ([TStartEnd (L "br") []], false));
  ((L "_" ++ [233]), ([TData (L "_" ++ [233])], false));
  ((L "if&#x41;65/>x=a" ++ [160] ++ L "<![]_=!--"), ([TData (L "if"); TCharref (L "x41"); TData (L "65/>x=a" ++ [160])], true));
  ((L "Ba=" ++ [0] ++ L "&#x<p>-->y='</ p"), ([TData (L "Ba=" ++ [0])], false));
  ((L "&#x</script>x=-->a" ++ [9] ++ L "41<a href='"), ([], false));
  ((L "<br/><![<![</><!--&lt;cdata[&#x_<br/><!DOCTYPE"), ([TStartEnd (L "br") []], true));
  ((L "_a<!DOCTYPE<3B" ++ [160] ++ L "<!" ++ [9] ++ L "/" ++ [0]), ([TData (L "_a")], false));
  ((L "]><3[&#65;'&#9&amp&ampp&:a" ++ [0]), ([TData (L "]>"); TData (L "<"); TData (L "3["); TCharref (L "65"); TData (L "'"); TCharref (L "9"); TEntity (L "amp"); TEntity (L "ampp"); TData (L "&"); TData (L ":a" ++ [0])], false));
  ((L "--&lt;'>x=/>]>cdata[" ++ [0]), ([TData (L "--"); TEntity (L "lt"); TData (L "'>x=/>]>cdata[" ++ [0])], false));
  (([10] ++ L "65<&a&#x<?"), ([TData ([10] ++ L "65"); TData (L "<"); TEntity (L "a")], false));
  ((L "<!['" ++ [10] ++ L "<3<STYLE >--</script>"), ([], true));
  ((L "<script><img src=""u"" />" ++ [10] ++ L "/&#X41;"), ([TStart (L "script") []], false));
  (([0] ++ L "<!&["), ([TData ([0])], false));
  ((L "<a href='[<3--<img src=""u"" />&nbsp;&lt;<!DOCTYPE<br/>!B--"), ([], false));
  ((L ";'-'></script>"), ([TData (L ";'-'>"); TEnd (L "script")], false));
  ((L "<?&#x"), ([], false));
  ((L "<a href='--/>&nbsp;=/><STYLE >"), ([], false));
  ((L "'><br/>&ampfoo<!--/>"), ([TData (L "'>"); TStartEnd (L "br") []; TEntity (L "ampfoo")], false));
  ((L "cdata[&lt;<STYLE ><a href='" ++ [0]), ([TData (L "cdata["); TEntity (L "lt"); TStart (L "style") []], false));
  ((L ".='>65" ++ [233] ++ L "<![z="""), ([TData (L ".='>65" ++ [233])], true));
  ((L "</p>'z=""-&#<img src=""u"" /></ style><![&lt;&#X41;" ++ [9]), ([TEnd (L "p"); TData (L "'z=""-"); TData (L "&#")], false));
  ((L "cdata[cdata[65"), ([TData (L "cdata[cdata[65")], false));
  ((L "&#<![;&#x41;" ++ [160] ++ L "&#[if'>"), ([TData (L "&#")], false));
  ((L "=&#&lt;&#x41;<" ++ [160] ++ L "a" ++ [10]), ([TData (L "="); TData (L "&#")], false));
  ((L "41--<p>cdata[" ++ [0] ++ L "]>"), ([TData (L "41--"); TStart (L "p") []; TData (L "cdata[" ++ [0] ++ L "]>")], false));
  ((L "</y='</>"), ([TEnd (L "y='<")], false));
  ((L "&#x41;p&#65;B;:?&#65;"), ([TCharref (L "x41"); TData (L "p"); TCharref (L "65"); TData (L "B;:?"); TCharref (L "65")], false));
  ((L "x=z=""</p>foo&#"), ([TData (L "x=z="""); TEnd (L "p"); TData (L "foo")], false));
  ((L "<!</script> <!" ++ [0] ++ [233]), ([TData (L " ")], false));
  ((L """&nbsp;&"), ([TData (L """"); TEntity (L "nbsp")], false));
  ((L "!&lt;:cdata[" ++ [160] ++ L "<!--></ style>"), ([TData (L "!"); TEntity (L "lt"); TData (L ":cdata[" ++ [160])], false));
  ((L "]></script>41<!--.--!&#if&nbsp;?"), ([TData (L "]>"); TEnd (L "script"); TData (L "41")], false));
  (([160] ++ L "_&&lt;cdata[</script>" ++ [160] ++ L ">/>'?"), ([TData ([160] ++ L "_"); TData (L "&"); TEntity (L "lt"); TData (L "cdata["); TEnd (L "script"); TData ([160] ++ L ">/>'?")], false));
  ((L "foo'>a<STYLE >:"), ([TData (L "foo'>a"); TStart (L "style") []], false));
  ((L "<!''>/>" ++ [160] ++ L "</script>!&</script>"), ([TData (L "/>" ++ [160]); TEnd (L "script"); TData (L "!"); TData (L "&"); TEnd (L "script")], false));
  ((L "&#'></p>--'41&#65;p&#&#65;&lt;"), ([TData (L "&#")], false));
  (([10] ++ L ";" ++ [9] ++ L "-->-->"), ([TData ([10] ++ L ";" ++ [9] ++ L "-->-->")], false));
  ((L "&#<!if "), ([], false));
  ((L " x=<a href='&#&#65;<!--=Bp&#X41;x="), ([TData (L " x=")], false));
  ((L "/]>" ++ [233] ++ L "!<STYLE >p&#x41;<?'>&#x41;a&amp<!DOCTYPE"), ([TData (L "/]>" ++ [233] ++ L "!"); TStart (L "style") []], false));
  ((L "&</-->" ++ [160] ++ L "<img src=""u"" />x="), ([TData (L "&"); TData ([160]); TStartEnd (L "img") [((L "src"), VStr (L "u"))]; TData (L "x=")], false));
  ((L "B</script>'><!--<!--<"), ([TData (L "B"); TEnd (L "script"); TData (L "'>")], false));
  ((L "&#x<?x=&#x]<p>z=""<3--<3""'<!["), ([], false));
  ((L "!&h1<</script>"), ([TData (L "!"); TEntity (L "h1"); TData (L "<"); TEnd (L "script")], false));
  ((L "ay='<![&#9;&nbsp;&#x=:"), ([TData (L "ay='")], true));
  ((L "x=&#'><!DOCTYPE</p>" ++ [233] ++ L "!<41&amp&#X41;z="""), ([TData (L "x="); TData (L "&#")], false));
  ((L "h1</script>&#<![</p>B<!<br/><3&#x&#<p></"), ([TData (L "h1"); TEnd (L "script")], false));
  ((L "x=</<!!<p>"), ([TData (L "x=")], false));
  (([9] ++ [160] ++ L "=]]>?<?a &#x]]>y='<!--"), ([TData ([9] ++ [160] ++ L "=]]>?"); TData (L "y='")], false));
  ((L "&#x&#x41;<3--&#&nbsp;foo&amp65" ++ [9] ++ L "</"), ([TData (L "&#")], false));
  ((L "!<STYLE ><</ style><!-- &#]> " ++ [9]), ([TData (L "!"); TStart (L "style") []; TData (L "<"); TEnd (L "style")], false));
  ((L "_'>&#x" ++ [233] ++ L "<script>" ++ [233] ++ L "&foo&#x41;"), ([TData (L "_'>"); TData (L "&#")], false));
  ((L "&#-&amp" ++ [9] ++ L "<br/></p><3</script>'>y='<<script>" ++ [233] ++ [233]), ([], false));
  ((L "z="" =""h1<!DOCTYPE<&amp</>x=&amp"), ([TData (L "z="" =""h1"); TData (L "x=")], false));
  ((L "cdata[</:<img src=""u"" />"), ([TData (L "cdata[")], false));
  ((L "&nbsp;if" ++ [9]), ([TEntity (L "nbsp"); TData (L "if" ++ [9])], false));
  ((L "cdata["), ([TData (L "cdata[")], false));
  ((L """<3/>=</ style>"), ([TData (L """"); TData (L "<"); TData (L "3/>="); TEnd (L "style")], false));
  (([10]), ([TData ([10])], false));
  ((L "&#xcdata[if41"), ([TCharref (L "xcda"); TData (L "ta[if41")], false));
  ((L "<!--</p></p><a href='<br/>&"), ([], false));
  ((L "<script>"), ([TStart (L "script") []], false));
  ((L "/>&#x41;if</ p&lt;" ++ [233] ++ L "B"), ([TData (L "/>"); TCharref (L "x41"); TData (L "if")], false));
  ((L "&#9-->" ++ [10] ++ L " " ++ [0] ++ L "<a href='<!;:" ++ [9]), ([TCharref (L "9"); TData (L "-->" ++ [10] ++ L " " ++ [0])], false));
  ((L "foo</y='<!<!DOCTYPEp"), ([TData (L "foo")], false));
  ((L ".&lt;<br/><br/>&#&#65;<br/>cdata[<!--"), ([TData (L "."); TEntity (L "lt"); TStartEnd (L "br") []; TStartEnd (L "br") []; TData (L "&#")], false));
  ((L "=&#x41;" ++ [233] ++ L "/></script><STYLE ></script>&#65;]&#9'h1["), ([TData (L "="); TCharref (L "x41"); TData ([233] ++ L "/>"); TEnd (L "script"); TStart (L "style") []], false));
  ((L "&#&amp/>" ++ [160] ++ L ";<img src=""u"" />B <a href='"), ([TData (L "&#")], false));
  ((L "-->&nbsp;-->?</p</script>""<?&]y='"), ([TData (L "-->"); TEntity (L "nbsp"); TData (L "-->?"); TEnd (L "p<"); TData (L """")], false));
  ((L "h1&#9<!--foox='>&#9" ++ [0] ++ L "--</p>" ++ [233] ++ L "&amp"), ([TData (L "h1"); TCharref (L "9")], false));
  (([9] ++ L "<br/>/>&#9</p>"), ([TData ([9]); TStartEnd (L "br") []; TData (L "/>"); TCharref (L "9"); TEnd (L "p")], false));
  ((L "</ p" ++ [160] ++ L """?&amp</script><br/>&amp]]>--"), ([TStartEnd (L "br") []; TEntity (L "amp"); TData (L "]]>--")], false));
  (([10] ++ L "[65ifh1" ++ [10] ++ L "<p>_?/>65--</ p"), ([TData ([10] ++ L "[65ifh1" ++ [10]); TStart (L "p") []; TData (L "_?/>65--")], false));
  ((L "[cdata[<p>&#xif=?<br/><!--.<a href='"), ([TData (L "[cdata["); TStart (L "p") []], false));
  ((L "]]><STYLE >'&lt;-;</ style><img src=""u"" />41"), ([TData (L "]]>"); TStart (L "style") []; TData (L "'&lt;-;"); TEnd (L "style"); TStartEnd (L "img") [((L "src"), VStr (L "u"))]; TData (L "41")], false));
  ((L "</ p-</ style><p>&#<br/>"), ([TStart (L "p") []], false));
  ((L "a" ++ [10] ++ [10] ++ L "]>65--"), ([TData (L "a" ++ [10] ++ [10] ++ L "]>65--")], false));
  ((L "='<STYLE >"), ([TData (L "='"); TStart (L "style") []], false));
  ((L "_</ p <br/>y='px="), ([TData (L "_"); TData (L "y='px=")], false));
  ((L "<p></>41/!<p>x=ify='x="), ([TStart (L "p") []; TData (L "41/!"); TStart (L "p") []; TData (L "x=ify='x=")], false));
  ((L ";<![&#x41;;p/-->65<365;"), ([TData (L ";")], true));
  ((L "<!DOCTYPE y='&</>p>]]>&lt;=&amp</>"), ([TData (L "p>]]>"); TEntity (L "lt"); TData (L "="); TEntity (L "amp")], false));
  ((L "<STYLE ><a href='<![&#X41;</&lt;<br/><img src=""u"" /></p>!&amp--"), ([TStart (L "style") []], false));
  ((L "z=""&lt;" ++ [0] ++ L "ifa]>&nbsp;y='"), ([TData (L "z="""); TEntity (L "lt"); TData ([0] ++ L "ifa]>"); TEntity (L "nbsp"); TData (L "y='")], false));
  ((L "]]>.&#9]><a href='"), ([TData (L "]]>."); TCharref (L "9"); TData (L "]>")], false));
  ((L "B&nbsp;a.&#65;" ++ [233] ++ L "65]]>]]>" ++ [0] ++ L "=x=65-"), ([TData (L "B"); TEntity (L "nbsp"); TData (L "a."); TCharref (L "65"); TData ([233] ++ L "65]]>]]>" ++ [0] ++ L "=x=65-")], false));
  ((L "<?&# ]]>--"), ([TData (L "--")], false));
  ((L "cdata[<!&#65; _"), ([TData (L "cdata[")], false));
  (([10] ++ L "</ p</p>[y='</ style>-->=" ++ [160] ++ L "&#x"""), ([TData ([10]); TData (L "[y='"); TEnd (L "style"); TData (L "-->=" ++ [160])], false));
  ((L "--<? <br/>&#x;&#65;<?<!DOCTYPE"), ([TData (L "--"); TData (L "&#")], false));
  ((L "<script>/>;"), ([TStart (L "script") []], false));
  ((L "&#65;</>/" ++ [160] ++ L "<a href='"), ([TCharref (L "65"); TData (L "/" ++ [160])], false));
  ((L "&#65;/"), ([TCharref (L "65"); TData (L "/")], false));
  ((L "p41=65z="":<script></ p" ++ [0] ++ L "41="":<!["), ([TData (L "p41=65z="":"); TStart (L "script") []], false));
  ((L "]]></ pBfoo&#x"), ([TData (L "]]>")], false));
  ((L "y='<p><!"), ([TData (L "y='"); TStart (L "p") []], false));
  ((L "&#x/" ++ [233] ++ L "]y='" ++ [0] ++ L "=:<p>:&#X41;"), ([TData (L "&#")], false));
  ((L "&amp&nbsp;</ p"), ([TEntity (L "amp"); TEntity (L "nbsp")], false));
  ((L "</><a href='"), ([], false));
  ((L ";<a href='&nbsp;.</script>41&nbsp;<!DOCTYPE&nbsp;<a href='"), ([TData (L ";")], false));
  ((L "y=' " ++ [233] ++ L "if</ p"), ([TData (L "y=' " ++ [233] ++ L "if")], false));
  ((L "p-!&#x=&amp" ++ [160] ++ L "[_-;</script><a href='</"), ([TData (L "p-!"); TData (L "&#")], false));
  ((L "&#9</p>cdata[" ++ [10]), ([TCharref (L "9"); TEnd (L "p"); TData (L "cdata[" ++ [10])], false));
  ((L "<a href='&#xB-->&nbsp;"), ([], false));
  ((L "//>"), ([TData (L "//>")], false));
  ((L " foo<script>_" ++ [233] ++ L ";[" ++ [0] ++ [9] ++ L "<!"), ([TData (L " foo"); TStart (L "script") []], false));
  ((L "&lt;&#cdata[:<p>h1<![<a href='["), ([TEntity (L "lt")], false));
  ((L "''></>" ++ [0] ++ L "&#X41;65'if?//></script>" ++ [0]), ([TData (L "''>"); TData ([0]); TCharref (L "X41"); TData (L "65'if?//>"); TEnd (L "script"); TData ([0])], false));
  ((L " </script>&#65;!" ++ [160] ++ [160] ++ L "<p><script>?&#"), ([TData (L " "); TEnd (L "script"); TCharref (L "65"); TData (L "!" ++ [160] ++ [160]); TStart (L "p") []; TStart (L "script") []], false));
  (([233] ++ L ".<!-- a"), ([TData ([233] ++ L ".")], false));
  ((L "</>'&nbsp;<p>" ++ [160] ++ L ":." ++ [0] ++ L "<!--&#x<?"), ([TData (L "'"); TEntity (L "nbsp"); TStart (L "p") []; TData ([160] ++ L ":." ++ [0])], false));
  ((L "<a href='&#<script><3</ p"), ([], false));
  ((L "&#x--&#x"), ([], false));
  ((L "]]>&amp&#65;!pp&#</ p" ++ [10] ++ [233] ++ L "cdata["), ([TData (L "]]>"); TEntity (L "amp"); TCharref (L "65"); TData (L "!pp")], false));
  ((L "p<?p&#65;<!<STYLE >"), ([TData (L "p")], false));
  ((L ">=</'"), ([TData (L ">=")], false));
  ((L "]><'>foo<a href='"), ([TData (L "]>"); TData (L "<"); TData (L "'>foo")], false));
  ((L "B&#x<?if<&#x</<a href='--><</ style>"), ([TData (L "B")], false));
  ((L "cdata[-"), ([TData (L "cdata[-")], false));
  ((L "<![?" ++ [0] ++ L "h1<!&#65;</><3y='foo]]>cdata[&#"), ([], true));
  ((L "'</ p.<!DOCTYPE&" ++ [0] ++ L "ifcdata[-->"), ([TData (L "'")], false));
  ((L "h1<script></script>"), ([TData (L "h1"); TStart (L "script") []; TEnd (L "script")], false));
  ((L "y='" ++ [9] ++ L "<a href='&-z=""41" ++ [10] ++ L "=]cdata[&#X41;"), ([TData (L "y='" ++ [9])], false));
  ((L "/><img src=""u"" />65&#x41;a </ style>_<script>&#65;<STYLE ><a href='"), ([TData (L "/>"); TStartEnd (L "img") [((L "src"), VStr (L "u"))]; TData (L "65"); TCharref (L "x41"); TData (L "a "); TEnd (L "style"); TData (L "_"); TStart (L "script") []], false));
  ((L " x=</script>]]>/&#X41;]></</p>[]>"), ([TData (L " x="); TEnd (L "script"); TData (L "]]>/"); TCharref (L "X41"); TData (L "]>"); TData (L "[]>")], false));
  ((L "x=&4141"), ([TData (L "x="); TData (L "&"); TData (L "4141")], false));
  ((L " </>"), ([TData (L " ")], false));
  ((L "&lt;-->ph1&#X41;'>&#65;&#x]]>--="), ([TEntity (L "lt"); TData (L "-->ph1"); TCharref (L "X41"); TData (L "'>"); TCharref (L "65")], false));
  ((L "<3<img src=""u"" />" ++ [160] ++ L "</ py='/><br/>" ++ [0] ++ L "Ba>"), ([TData (L "<"); TData (L "3"); TStartEnd (L "img") [((L "src"), VStr (L "u"))]; TData ([160]); TStartEnd (L "br") []; TData ([0] ++ L "Ba>")], false));
  ((L ":</ style><img src=""u"" /><!>=]"), ([TData (L ":"); TEnd (L "style"); TStartEnd (L "img") [((L "src"), VStr (L "u"))]; TData (L "=]")], false));
  ((L "]><br/>&&nbsp;&#X41;h1"), ([TData (L "]>"); TStartEnd (L "br") []; TData (L "&"); TEntity (L "nbsp"); TCharref (L "X41"); TData (L "h1")], false))
].
Definition uncases : list (str * str) := [
  ((L "&#128;x&#65 &acE;"), ([8364] ++ L "xA " ++ [8766] ++ [819]));
  ((L "a&#65&amp#&notit;zz"), (L "aA&#" ++ [172] ++ L "it;zz"));
  ((L "&#1;amp&notit;&#1;amp"), (L "amp" ++ [172] ++ L "it;amp"));
  ((L "#<X&#x1F600;&#65"), (L "#<X" ++ [128512] ++ L "A"));
  ((L "&notit;&nbsp&#1;"), ([172] ++ L "it;" ++ [160]));
  ((L "x&acE;zz&nbsp&&frac12;"), (L "x" ++ [8766] ++ [819] ++ L "zz" ++ [160] ++ L "&" ++ [189]));
  ((L "3"), (L "3"));
  ((L "notin"), (L "notin"));
  ((L "3zz"), (L "3zz"));
  ((L "&#x1F600;notin&NotEqualTilde;33&amp;"), ([128512] ++ L "notin" ++ [8770] ++ [824] ++ L "33&"));
  ((L "not&acE;&<zz3"), (L "not" ++ [8766] ++ [819] ++ L "&<zz3"));
  ((L "&amp;;&#65gtzz&#xD800;"), (L "&;Agtzz" ++ [65533]));
  ((L "&AMP&#1;"), (L "&"));
  ((L "not"), (L "not"));
  ((L " "), (L " "));
  ((L "&notit;&frac12;"), ([172] ++ L "it;" ++ [189]));
  ((L "zz&amp;&#65&&nbspx"), (L "zz&A&" ++ [160] ++ L "x"));
  ((L "&acE;gtnot&NotEqualTilde;&NotEqualTilde;"), ([8766] ++ [819] ++ L "gtnot" ++ [8770] ++ [824] ++ [8770] ++ [824]));
  ((L "X&#0;&#x1F600;&nbsp&#0;&AMPlt"), (L "X" ++ [65533] ++ [128512] ++ [160] ++ [65533] ++ L "&lt"));
  ((L "&amp;&AMP3;&acE;&#x1F600;;"), (L "&&3;" ++ [8766] ++ [819] ++ [128512] ++ L ";"));
  ((L "&zz3&#x1F600;&NotEqualTilde;;"), (L "&zz3" ++ [128512] ++ [8770] ++ [824] ++ L ";"));
  ((L "ltnotin&amp;&#0;&#x1F600;lt"), (L "ltnotin&" ++ [65533] ++ [128512] ++ L "lt"));
  ((L "xzz&acE;&#0;gt&nbsp&#1;"), (L "xzz" ++ [8766] ++ [819] ++ [65533] ++ L "gt" ++ [160]));
  ((L "&notit;<&#1;&AMP&AMP"), ([172] ++ L "it;<&&"));
  ((L "notzz<&nbspxnot&NotEqualTilde;"), (L "notzz<" ++ [160] ++ L "xnot" ++ [8770] ++ [824]));
  ((L ";&#1;amp&amp;"), (L ";amp&"));
  ((L "&AMP&amp; amp#notingt"), (L "&& amp#notingt"));
  ((L "&amp;&#65&#xD800;"), (L "&A" ++ [65533]));
  ((L "3 amp< <"), (L "3 amp< <"));
  ((L "&#x1F600;&acE;&#65&nbspnotin&nbsp;"), ([128512] ++ [8766] ++ [819] ++ L "A" ++ [160] ++ L "notin" ++ [160]));
  ((L "&amp;gt3not"), (L "&gt3not"));
  ((L "not<&#0;3"), (L "not<" ++ [65533] ++ L "3"));
  ((L "not ;3&#65"), (L "not ;3A"));
  ((L "&acE;anotin &#0;amp#"), ([8766] ++ [819] ++ L "anotin " ++ [65533] ++ L "amp#"));
  ((L "&#x1F600;X&#xD800;&#x1F600;"), ([128512] ++ L "X" ++ [65533] ++ [128512]));
  ((L "xlt<&#65&X"), (L "xlt<A&X"));
  ((L "zz&AMP&#x1F600;gt<"), (L "zz&" ++ [128512] ++ L "gt<"));
  ((L "&nbspx"), ([160] ++ L "x"));
  ((L "&notit;X"), ([172] ++ L "it;X"));
  ((L "zz&#x1F600;notnot"), (L "zz" ++ [128512] ++ L "notnot"));
  ((L "notin"), (L "notin"));
  ((L "&notit;&notit;&AMP&notit;"), ([172] ++ L "it;" ++ [172] ++ L "it;&" ++ [172] ++ L "it;"));
  ((L "&nbsp&#x1F600;<"), ([160] ++ [128512] ++ L "<"));
  ((L "<"), (L "<"));
  ((L "&amp;&nbspnotnotin&NotEqualTilde;"), (L "&" ++ [160] ++ L "notnotin" ++ [8770] ++ [824]));
  ((L "&nbsp3&&#65&NotEqualTilde;&#xD800;X"), ([160] ++ L "3&A" ++ [8770] ++ [824] ++ [65533] ++ L "X"));
  ((L "&#1;a#"), (L "a#"));
  ((L "3&amp;&#0;&amp;"), (L "3&" ++ [65533] ++ L "&"));
  ((L "zz&acE;not&#x1F600;"), (L "zz" ++ [8766] ++ [819] ++ L "not" ++ [128512]));
  ((L "&#128;&acE;X"), ([8364] ++ [8766] ++ [819] ++ L "X"));
  ((L "zz&&#1;amp"), (L "zz&amp"));
  ((L " #&nbsp3notinzz"), (L " #" ++ [160] ++ L "3notinzz"));
  ((L "&#0;<&#1;&#x1F600;amp&notit;"), ([65533] ++ L "<" ++ [128512] ++ L "amp" ++ [172] ++ L "it;"));
  ((L "a&#128;&frac12;&#0;#"), (L "a" ++ [8364] ++ [189] ++ [65533] ++ L "#"));
  ((L "amp<&#xD800;x;"), (L "amp<" ++ [65533] ++ L "x;"));
  ((L "&nbsp&#128;#&notit;&NotEqualTilde;&#xD800;&#x1F600;"), ([160] ++ [8364] ++ L "#" ++ [172] ++ L "it;" ++ [8770] ++ [824] ++ [65533] ++ [128512]));
  ((L "&NotEqualTilde;&#x1F600;&AMP3not&#128;"), ([8770] ++ [824] ++ [128512] ++ L "&3not" ++ [8364]));
  ((L "&x&#128;"), (L "&x" ++ [8364]));
  ((L "&acE;&nbspnot&frac12;&acE;3"), ([8766] ++ [819] ++ [160] ++ L "not" ++ [189] ++ [8766] ++ [819] ++ L "3"));
  ((L "&#x1F600;Xltx&nbsp"), ([128512] ++ L "Xltx" ++ [160]));
  ((L "&nbsp"), ([160]));
  ((L "&notit;&#128;&#x1F600;"), ([172] ++ L "it;" ++ [8364] ++ [128512]));
  ((L "gtamp&frac12;&amp;&#65"), (L "gtamp" ++ [189] ++ L "&A"));
  ((L "gt&#xD800;zz&#xD800;"), (L "gt" ++ [65533] ++ L "zz" ++ [65533]));
  ((L "zz&#65zz"), (L "zzAzz"));
  ((L "ampzz&#x1F600;"), (L "ampzz" ++ [128512]));
  ((L "&AMPzza&NotEqualTilde;&acE;gt"), (L "&zza" ++ [8770] ++ [824] ++ [8766] ++ [819] ++ L "gt"));
  ((L "notin&amp; <ltzz&#x1F600;"), (L "notin& <ltzz" ++ [128512]));
  ((L "&&nbspxnot&#128;zz"), (L "&" ++ [160] ++ L "xnot" ++ [8364] ++ L "zz"));
  ((L "&#1;&#x1F600;3&frac12;#"), ([128512] ++ L "3" ++ [189] ++ L "#"));
  ((L "lt"), (L "lt"));
  ((L "&#0; "), ([65533] ++ L " "));
  ((L "&NotEqualTilde;3&&#0;not&#65&"), ([8770] ++ [824] ++ L "3&" ++ [65533] ++ L "notA&"));
  ((L "&#x1F600;&frac12;X&acE;3alt"), ([128512] ++ [189] ++ L "X" ++ [8766] ++ [819] ++ L "3alt"));
  ((L "&X&#128;"), (L "&X" ++ [8364]));
  ((L "&acE;&#x1F600;&NotEqualTilde;&amp;"), ([8766] ++ [819] ++ [128512] ++ [8770] ++ [824] ++ L "&"));
  ((L "<&#1;notin "), (L "<notin "));
  ((L "lt&acE;#Xa"), (L "lt" ++ [8766] ++ [819] ++ L "#Xa"));
  ((L "&#128;#;"), ([8364] ++ L "#;"));
  ((L " gt"), (L " gt"));
  ((L "notin"), (L "notin"));
  ((L ";a&nbspzzamp&frac12;&#0;"), (L ";a" ++ [160] ++ L "zzamp" ++ [189] ++ [65533]));
  ((L "#not&;&acE;&#65"), (L "#not&;" ++ [8766] ++ [819] ++ L "A"));
  ((L "&amp;"), (L "&"));
  ((L " X"), (L " X"));
  ((L "&nbspgt&NotEqualTilde;&nbsp&#128;&amp;"), ([160] ++ L "gt" ++ [8770] ++ [824] ++ [160] ++ [8364] ++ L "&"));
  ((L "&#1;"), ([]));
  ((L "&notit;&#128;&amp;lt &frac12;amp"), ([172] ++ L "it;" ++ [8364] ++ L "&lt " ++ [189] ++ L "amp"));
  ((L "<&nbsp&AMPamp&#x1F600;;&acE;"), (L "<" ++ [160] ++ L "&amp" ++ [128512] ++ L ";" ++ [8766] ++ [819]));
  ((L "zzzzlt;"), (L "zzzzlt;"));
  ((L "&&#653&#128;#zz"), (L "&" ++ [653] ++ [8364] ++ L "#zz"));
  ((L "; &#128; &AMP"), (L "; " ++ [8364] ++ L " &"));
  ((L "&#< &&acE;&nbsp"), (L "&#< &" ++ [8766] ++ [819] ++ [160]));
  ((L "&#65amp&#128;#&NotEqualTilde;&AMP<"), (L "Aamp" ++ [8364] ++ L "#" ++ [8770] ++ [824] ++ L "&<"));
  ((L "&notit;&NotEqualTilde;&#65"), ([172] ++ L "it;" ++ [8770] ++ [824] ++ L "A"));
  ((L "&&#1;<notin&nbsp&#128;"), (L "&<notin" ++ [160] ++ [8364]));
  ((L "&amp; lt&#653&acE;"), (L "& lt" ++ [653] ++ [8766] ++ [819]));
  ((L "&acE;"), ([8766] ++ [819]));
  ((L "3&#xD800;X &#0;&#0;X"), (L "3" ++ [65533] ++ L "X " ++ [65533] ++ [65533] ++ L "X"));
  ((L "<#&nbsp"), (L "<#" ++ [160]));
  ((L "&#128;notin&zz<;"), ([8364] ++ L "notin&zz<;"));
  ((L "zz&#1;"), (L "zz"));
  ((L "notin&#xD800;&acE;"), (L "notin" ++ [65533] ++ [8766] ++ [819]));
  ((L "x#&frac12;&#xD800;"), (L "x#" ++ [189] ++ [65533]));
  ((L "&#65&frac12;"), (L "A" ++ [189]));
  ((L "&#x1F600;"), ([128512]));
  ((L "&#65&amp;&#0;;&&amp;a"), (L "A&" ++ [65533] ++ L ";&&a"));
  ((L "<Xa&amp;"), (L "<Xa&"));
  ((L "not&#1;&amp;&#65&#0;lt"), (L "not&A" ++ [65533] ++ L "lt"));
  ((L "&AMP3a&#0;"), (L "&3a" ++ [65533]));
  ((L "&AMPgtX#&#x1F600;zz"), (L "&gtX#" ++ [128512] ++ L "zz"));
  ((L "&#x1F600;x"), ([128512] ++ L "x"));
  ((L ";&notit;"), (L ";" ++ [172] ++ L "it;"));
  ((L "&acE;&#128;x"), ([8766] ++ [819] ++ [8364] ++ L "x"));
  ((L "<< &X"), (L "<< &X"));
  ((L ";&#1;gt&#0;&AMPX3"), (L ";gt" ++ [65533] ++ L "&X3"));
  ((L "x"), (L "x"));
  ((L "3lt"), (L "3lt"));
  ((L "&#65x"), (L "Ax"));
  ((L "gt &AMPgt&#x1F600;3zz"), (L "gt &gt" ++ [128512] ++ L "3zz"));
  ((L "&AMPx&#65&amp;3"), (L "&xA&3"));
  ((L "&NotEqualTilde;&notit;not"), ([8770] ++ [824] ++ [172] ++ L "it;not"));
  ((L "x&#0;&AMP"), (L "x" ++ [65533] ++ L "&"));
  ((L "notin"), (L "notin"));
  ((L "&#1;amp&#x1F600;&#1; &frac12;"), (L "amp" ++ [128512] ++ L " " ++ [189]));
  ((L "zz&NotEqualTilde;&notit;&#1;lt"), (L "zz" ++ [8770] ++ [824] ++ [172] ++ L "it;lt"));
  ((L "&#xD800;gtzzx&NotEqualTilde;&#xD800;"), ([65533] ++ L "gtzzx" ++ [8770] ++ [824] ++ [65533]));
  ((L "&#65a#X<"), (L "Aa#X<"));
  ((L "gt"), (L "gt"));
  ((L "3 &#65xXnotin&frac12;"), (L "3 AxXnotin" ++ [189]));
  ((L "lt"), (L "lt"));
  ((L "&nbsp&AMP&acE;&#0;"), ([160] ++ L "&" ++ [8766] ++ [819] ++ [65533]));
  ((L "&#xD800;zz"), ([65533] ++ L "zz"));
  ((L "&acE;a<3"), ([8766] ++ [819] ++ L "a<3"));
  ((L "ltnot<zz"), (L "ltnot<zz"));
  ((L "3&#1;xlt3notin"), (L "3xlt3notin"));
  ((L "&#xD800;amp&#65&acE;&#x1F600;"), ([65533] ++ L "ampA" ++ [8766] ++ [819] ++ [128512]));
  ((L "a<&NotEqualTilde;x<"), (L "a<" ++ [8770] ++ [824] ++ L "x<"));
  ((L "amp"), (L "amp"));
  ((L "X#"), (L "X#"));
  ((L "notina"), (L "notina"));
  ((L "&notit;&notit;;&AMP"), ([172] ++ L "it;" ++ [172] ++ L "it;;&"));
  ((L "a&#x1F600;&#65&nbsp&NotEqualTilde;lt&#xD800;"), (L "a" ++ [128512] ++ L "A" ++ [160] ++ [8770] ++ [824] ++ L "lt" ++ [65533]));
  ((L "&"), (L "&"));
  ((L "notin<&#xD800;"), (L "notin<" ++ [65533]));
  ((L "&#0;&NotEqualTilde;zz#&frac12;  "), ([65533] ++ [8770] ++ [824] ++ L "zz#" ++ [189] ++ L "  "));
  ((L "x&notit;not&#0;gt3"), (L "x" ++ [172] ++ L "it;not" ++ [65533] ++ L "gt3"));
  ((L "<X&#65&#x1F600;&"), (L "<XA" ++ [128512] ++ L "&"));
  ((L "&#x1F600;&#65&NotEqualTilde;3&NotEqualTilde;lt&acE;"), ([128512] ++ L "A" ++ [8770] ++ [824] ++ L "3" ++ [8770] ++ [824] ++ L "lt" ++ [8766] ++ [819]));
  ((L "&amp;a"), (L "&a"))
].

Definition str_dec : forall a b : str, {a = b} + {a <> b} := list_eq_dec N.eq_dec.
Definition pyval_dec : forall a b : pyval, {a = b} + {a <> b}.
Proof. decide equality; auto using str_dec, Z.eq_dec, bool_dec. Defined.
Definition tok_dec : forall a b : tok, {a = b} + {a <> b}.
Proof. decide equality; auto using str_dec; apply list_eq_dec; decide equality; auto using str_dec, pyval_dec. Defined.
Definition res_dec : forall a b : list tok * bool, {a = b} + {a <> b}.
Proof. decide equality; auto using bool_dec; apply list_eq_dec, tok_dec. Defined.

Example conf_tokens : forallb (fun c => if res_dec (tokens (fst c)) (snd c) then true else false) cases = true.
Proof. vm_compute. reflexivity. Qed.
Example conf_unescape : forallb (fun c => if str_dec (unescape (fst c)) (snd c) then true else false) uncases = true.
Proof. vm_compute. reflexivity. Qed.
