(** Generated by tools/gen_urlconf.py.  Do not edit. *)
From Coq Require Import String List NArith ZArith Bool.
From Verif Require Import PyStr Utils Res UrlQuote.
Import ListNotations.
Open Scope N_scope.
Definition cases : list (str * option str) := [
  ((L "a&mailtox-y[:"), Some (L "a%26mailtox-y%5B%3A"));
  ((L "'mailto+;ftpnews"), Some (L "%27mailto%2B;ftpnews"));
  ((L "=x-y" ++ [8364] ++ L "news] mailto"), Some (L "%3Dx-y%E2%82%ACnews%5D%20mailto"));
  (([233] ++ L "'"), Some (L "%C3%A9%27"));
  ((L "!"), Some (L "%21"));
  ((L "mailto" ++ [233] ++ L "ftp]/%20="), Some (L "mailto%C3%A9ftp%5D/%2520%3D"));
  ((L "[//!"), Some (L "%5B//%21"));
  ((L "]?:'!"), Some (L "%5D?:'!"));
  ((L "foo.tld:]x-y"), Some (L "foo.tld:%5Dx-y"));
  ((L ";"), Some ([]));
  ((L "[ _" ++ [10] ++ L "'" ++ [10] ++ L "foo.tld~"), Some (L "%5B%20_%27foo.tld~"));
  ((L "?" ++ [8364] ++ L "news!"), Some (L "?" ++ [8364] ++ L "news!"));
  ((L "javascript1-" ++ [9] ++ L "%20"), Some (L "javascript1-%2520"));
  ((L "//+"), Some (L "//+"));
  ((L "b c-a1=ftpx-y"), Some (L "b%20c-a1%3Dftpx-y"));
  ((L "!_-.1'" ++ [10] ++ L "x-ynews"), Some (L "%21_-.1%27x-ynews"));
  ((L "Ax-ymailto~!"), Some (L "Ax-ymailto~%21"));
  ((L "%20@.https" ++ [10] ++ L ".b c//"), Some (L "%2520%40.https.b%20c//"));
  ((L "mailto;%20/" ++ [8364] ++ L "&&1"), Some (L "mailto%3B%2520/%E2%82%AC%26%261"));
  ((L "b c" ++ [9]), Some (L "b%20c"));
  ((L "]%/ ]%="), Some (L "%5D%25/%20%5D%25%3D"));
  ((L "@" ++ [233] ++ L "anews?a"), Some (L "%40%C3%A9anews?a"));
  (([233] ++ L "http1'"), Some (L "%C3%A9http1%27"));
  (([128512] ++ L "%20http"), Some (L "%F0%9F%98%80%2520http"));
  ((L "=[foo.tld"), Some (L "%3D%5Bfoo.tld"));
  ((L "/+mailto" ++ [10] ++ L "]&"), Some (L "/%2Bmailto%5D%26"));
  ((L "&&:A&mailto#"), Some (L "%26%26%3AA%26mailto"));
  ((L ";" ++ [9]), Some ([]));
  ((L "//-mailto"), Some (L "//-mailto"));
  ((L "http!"), Some (L "http%21"));
  ((L "[:foo.tld"), Some (L "%5B%3Afoo.tld"));
  ((L "x-y"), Some (L "x-y"));
  ((L "@a" ++ [128512] ++ L "."), Some (L "%40a%F0%9F%98%80."));
  ((L "A////1" ++ [10] ++ L "A"), Some (L "A////1A"));
  ((L "~newsa:-" ++ [128512] ++ L "Ab c"), Some (L "~newsa%3A-%F0%9F%98%80Ab%20c"));
  ((L "https;javascriptfoo.tlda[httpsjavascript~"), Some (L "https;javascriptfoo.tlda[httpsjavascript~"));
  (([128512] ++ L "javascript"), Some (L "%F0%9F%98%80javascript"));
  ((L "b c." ++ [233] ++ L "[[+"), Some (L "b%20c.%C3%A9%5B%5B%2B"));
  (([233] ++ L "#" ++ [8364] ++ L "&" ++ [233] ++ L "#"), Some (L "%C3%A9#" ++ [8364] ++ L "&" ++ [233] ++ L "#"));
  ((L "1.httpshttps%A" ++ [128512] ++ L "#."), Some (L "1.httpshttps%25A%F0%9F%98%80#."));
  ((L ".foo.tldnews" ++ [233] ++ L ":" ++ [233] ++ L "A#"), Some (L ".foo.tldnews%C3%A9%3A%C3%A9A"));
  ((L ";AhttpA.news"), Some (L ";AhttpA.news"));
  ((L "@#"), Some (L "%40"));
  ((L "? -news&" ++ [10] ++ L "&news"), Some (L "? -news&&news"));
  ((L "b c/https"), Some (L "b%20c/https"));
  ((L "'" ++ [10] ++ L "a"), Some (L "%27a"));
  ((L ".a]]/httpshttp:"), Some (L ".a%5D%5D/httpshttp%3A"));
  ((L "/ #;https" ++ [128512] ++ L ";%20+"), Some (L "/%20#;https" ++ [128512] ++ L ";%20+"));
  ((L "'_" ++ [128512] ++ L "["), Some (L "%27_%F0%9F%98%80%5B"));
  ((L "/mailto." ++ [10] ++ L "'javascript="), Some (L "/mailto.%27javascript%3D"));
  ((L "/[ajavascript+https" ++ [9] ++ L "?http"), Some (L "/%5Bajavascript%2Bhttps?http"));
  ((L "?aA"), Some (L "?aA"));
  ((L "]mailto"), Some (L "%5Dmailto"));
  ((L "javascriptjavascript]A:]"), Some (L "javascriptjavascript%5DA%3A%5D"));
  (([8364]), Some (L "%E2%82%AC"));
  ((L "%ftp:+"), Some (L "%25ftp%3A%2B"));
  ((L "]httpsx-y" ++ [9] ++ L "_++#"), Some (L "%5Dhttpsx-y_%2B%2B"));
  (([9] ++ L "+[A+"), Some (L "%2B%5BA%2B"));
  ((L "javascript" ++ [128512] ++ L "]#"), Some (L "javascript%F0%9F%98%80%5D"));
  ((L "/=//&" ++ [9] ++ L "_x-y" ++ [8364]), Some (L "/%3D//%26_x-y%E2%82%AC"));
  ((L "x-y;~//afoo.tlda"), Some (L "x-y%3B~//afoo.tlda"));
  ((L "/" ++ [10] ++ [233] ++ L ":&"), Some (L "/%C3%A9%3A%26"));
  ((L "b c" ++ [233] ++ L "b c +&-="), Some (L "b%20c%C3%A9b%20c%20%2B%26-%3D"));
  ((L "._newsfoo.tld"), Some (L "._newsfoo.tld"));
  ((L "-"), Some (L "-"));
  (([10] ++ [9] ++ L "https@-javascript%20+x-y"), Some (L "https%40-javascript%2520%2Bx-y"));
  (([233] ++ L ":"), Some (L "%C3%A9%3A"));
  (([128512] ++ L "%"), Some (L "%F0%9F%98%80%25"));
  ((L "?"), Some ([]));
  ((L "/ " ++ [128512] ++ L "&a"), Some (L "/%20%F0%9F%98%80%26a"));
  ((L "+!1_news%mailto? "), Some (L "%2B%211_news%25mailto? "));
  ((L "%https"), Some (L "%25https"));
  (([128512] ++ L "news"), Some (L "%F0%9F%98%80news"));
  ((L "x-y" ++ [128512] ++ L "//" ++ [10]), Some (L "x-y%F0%9F%98%80//"));
  ((L "-"), Some (L "-"));
  ((L "=%/ftpjavascript" ++ [8364] ++ L "//b c" ++ [128512]), Some (L "%3D%25/ftpjavascript%E2%82%AC//b%20c%F0%9F%98%80"));
  ((L "?"), Some ([]));
  ((L "~~javascript;"), Some (L "~~javascript"));
  (([9] ++ L "+?%."), Some (L "%2B?%."));
  (([128512]), Some (L "%F0%9F%98%80"));
  ((L "http"), Some (L "http"));
  ((L "+"), Some (L "%2B"));
  ((L "#+A" ++ [8364] ++ [9] ++ L ": 1["), Some (L "#+A" ++ [8364] ++ L ": 1["));
  ((L "+~;" ++ [233] ++ L "-#/"), Some (L "%2B~;" ++ [233] ++ L "-#/"));
  ((L ".mailto/httpx-y" ++ [128512] ++ L " "), Some (L ".mailto/httpx-y%F0%9F%98%80%20"));
  ((L "mailtonews@"), Some (L "mailtonews%40"));
  ((L "%20" ++ [8364] ++ L "%20ftp" ++ [10] ++ L "?b c%" ++ [9]), Some (L "%2520%E2%82%AC%2520ftp?b c%"));
  (([128512]), Some (L "%F0%9F%98%80"));
  ((L "-]_" ++ [8364] ++ L "ftp~"), Some (L "-%5D_%E2%82%ACftp~"));
  ((L ".?http-"), Some (L ".?http-"));
  ((L "newsA%+#" ++ [8364] ++ L "+"), Some (L "newsA%25%2B#" ++ [8364] ++ L "+"));
  ((L "news"), Some (L "news"));
  ((L "newsa&'ftp"), Some (L "newsa%26%27ftp"));
  ((L "https~~" ++ [233] ++ L "news'javascript"), Some (L "https~~%C3%A9news%27javascript"));
  ((L "@_1"), Some (L "%40_1"));
  ((L "%20aftp"), Some (L "%2520aftp"));
  ((L " +/javascript+!https'" ++ [233]), Some (L "%2B/javascript%2B%21https%27%C3%A9"));
  ((L "httpsftp"), Some (L "httpsftp"));
  ((L "foo.tld:@"), Some (L "foo.tld:%40"));
  ((L "]mailtohttps[" ++ [8364] ++ L "1" ++ [128512] ++ L "http"), Some (L "%5Dmailtohttps%5B%E2%82%AC1%F0%9F%98%80http"));
  ((L "x-y+[newsjavascriptx-yA" ++ [128512]), Some (L "x-y%2B%5Bnewsjavascriptx-yA%F0%9F%98%80"));
  (([128512] ++ [8364]), Some (L "%F0%9F%98%80%E2%82%AC"));
  (([233] ++ [10] ++ L "1@"), Some (L "%C3%A91%40"));
  ((L "A%20"), Some (L "A%2520"));
  ((L "#"), Some ([]));
  ((L "a-"), Some (L "a-"));
  ((L "~!/httpA"), Some (L "~%21/httpA"));
  ((L "1"), Some (L "1"));
  ((L ":;1%20javascript"), Some (L "%3A;1%20javascript"));
  (([10] ++ [10] ++ [10] ++ L "//]"), None);
  ((L "~newsAhttps"), Some (L "~newsAhttps"));
  (([10] ++ L "x-y+" ++ [9] ++ L "%"), Some (L "x-y%2B%25"));
  ((L ";;x-y'newsajavascript"), Some (L ";;x-y'newsajavascript"));
  ((L "foo.tld/+%//"), Some (L "foo.tld/%2B%25//"));
  (([233] ++ L "11&httpsb c"), Some (L "%C3%A911%26httpsb%20c"));
  ((L "1"), Some (L "1"));
  ((L "&~a=.@_//"), Some (L "%26~a%3D.%40_//"));
  ((L "http_-&//#"), Some (L "http_-%26//"));
  ((L "%20"), Some (L "%2520"));
  ((L "foo.tldx-y&@'"), Some (L "foo.tldx-y%26%40%27"));
  ((L "foo.tld "), Some (L "foo.tld%20"));
  ((L "mailto%:mailto%20"), Some (L "mailto%25%3Amailto%2520"));
  (([8364] ++ L "% "), Some (L "%E2%82%AC%25%20"));
  ((L "_#foo.tld https&]];"), Some (L "_#foo.tld https&]];"));
  ((L "mailto="), Some (L "mailto%3D"));
  ((L "/%201mailto]/b cA"), Some (L "/%25201mailto%5D/b%20cA"));
  ((L "-%20~" ++ [128512] ++ [128512] ++ L "&" ++ [8364]), Some (L "-%2520~%F0%9F%98%80%F0%9F%98%80%26%E2%82%AC"));
  ((L "A]&//b c"), Some (L "A%5D%26//b%20c"));
  ((L "x-y;+"), Some (L "x-y;+"));
  ((L "]" ++ [233] ++ [9] ++ L "-" ++ [9] ++ L " /]"), Some (L "%5D%C3%A9-%20/%5D"));
  (([8364] ++ L "news?-"), Some (L "%E2%82%ACnews?-"));
  ((L "news_" ++ [8364] ++ L "foo.tld" ++ [128512] ++ L "!#https="), Some (L "news_%E2%82%ACfoo.tld%F0%9F%98%80%21#https="));
  ((L "=javascript;@%-mailto"), Some (L "%3Djavascript;@%-mailto"));
  ((L "%!foo.tld/+javascript;news"), Some (L "%25%21foo.tld/%2Bjavascript;news"));
  (([8364] ++ L "@&" ++ [9] ++ L " "), Some (L "%E2%82%AC%40%26%20"));
  ((L "https/ftp A"), Some (L "https/ftp%20A"));
  ((L "httpx-y&javascript" ++ [10] ++ [9] ++ [8364] ++ L ":"), Some (L "httpx-y%26javascript%E2%82%AC%3A"));
  ((L "aajavascript:"), Some (L "aajavascript:"));
  ((L "news]ftphttp/" ++ [233] ++ L "!ftp"), Some (L "news%5Dftphttp/%C3%A9%21ftp"));
  ((L "/" ++ [128512] ++ L "javascript //"), Some (L "/%F0%9F%98%80javascript%20//"));
  ((L "x-y~"), Some (L "x-y~"));
  ((L "'#@" ++ [128512] ++ [233] ++ L "httphttp[~"), Some (L "%27#@" ++ [128512] ++ [233] ++ L "httphttp[~"));
  ((L "%_" ++ [8364] ++ L "Ajavascript" ++ [8364] ++ L "]" ++ [8364]), Some (L "%25_%E2%82%ACAjavascript%E2%82%AC%5D%E2%82%AC"));
  ((L "="), Some (L "%3D"));
  ((L "mailtohttps#1="), Some (L "mailtohttps#1="));
  (([128512] ++ [233]), Some (L "%F0%9F%98%80%C3%A9"));
  ((L "foo.tld" ++ [233] ++ L "1ftp-=foo.tld"), Some (L "foo.tld%C3%A91ftp-%3Dfoo.tld"));
  ((L "#http%20+x-y;1"), Some (L "#http%20+x-y;1"));
  ((L "~#" ++ [233] ++ [10]), Some (L "~#" ++ [233]));
  (([128512] ++ L "%20:1"), Some (L "%F0%9F%98%80%2520%3A1"));
  (([233] ++ L "1="), Some (L "%C3%A91%3D"));
  ((L "a"), Some (L "a"));
  ((L "mailto;httpsa=mailtomailto"), Some (L "mailto;httpsa=mailtomailto"));
  ((L "&" ++ [9] ++ L "_"), Some (L "%26_"));
  ((L "newsb c"), Some (L "newsb%20c"));
  ((L "#?javascript" ++ [10] ++ L "ftp~"), Some (L "#?javascriptftp~"));
  ((L "foo.tld-" ++ [9] ++ L "b c:httpnews"), Some (L "foo.tld-b%20c%3Ahttpnews"));
  ((L "news.=//]"), Some (L "news.%3D//%5D"));
  ((L "@.~ "), Some (L "%40.~%20"));
  ((L "mailtoA"), Some (L "mailtoA"));
  ((L "foo.tld[" ++ [9] ++ L "#"), Some (L "foo.tld%5B"));
  ((L "foo.tldAhttps=" ++ [8364] ++ L "&"), Some (L "foo.tldAhttps%3D%E2%82%AC%26"));
  ((L "@"), Some (L "%40"));
  (([10]), Some ([]));
  ((L "mailto" ++ [128512]), Some (L "mailto%F0%9F%98%80"));
  ((L "x-y-foo.tld%"), Some (L "x-y-foo.tld%25"));
  ((L "ftp" ++ [128512] ++ L "_%~http"), Some (L "ftp%F0%9F%98%80_%25~http"));
  ((L "https" ++ [233]), Some (L "https%C3%A9"));
  ((L "A" ++ [10]), Some (L "A"));
  (([128512] ++ L " 1/1?http"), Some (L "%F0%9F%98%80%201/1?http"));
  ((L "a" ++ [8364] ++ L "__" ++ [10]), Some (L "a%E2%82%AC__"));
  ((L "news+#&b c" ++ [8364]), Some (L "news%2B#&b c" ++ [8364]));
  ((L "x-yftpA][_b c"), Some (L "x-yftpA%5D%5B_b%20c"));
  ((L ":x-y" ++ [128512] ++ L "news;:="), Some (L "%3Ax-y%F0%9F%98%80news;:="));
  (([9] ++ L "?" ++ [233] ++ L "/=" ++ [10] ++ [8364] ++ L "["), Some (L "?" ++ [233] ++ L "/=" ++ [8364] ++ L "["));
  ((L "%20%20"), Some (L "%2520%2520"));
  ((L "!%foo.tld" ++ [128512] ++ [128512]), Some (L "%21%25foo.tld%F0%9F%98%80%F0%9F%98%80"));
  (([9] ++ [8364] ++ L "?" ++ [8364]), Some (L "%E2%82%AC?" ++ [8364]));
  ((L "a%20'#"), Some (L "a%2520%27"));
  ((L "x-y&" ++ [128512] ++ [8364] ++ L "+javascript"), Some (L "x-y%26%F0%9F%98%80%E2%82%AC%2Bjavascript"));
  ((L ":" ++ [10] ++ L "ftp:"), Some (L "%3Aftp%3A"));
  ((L "A"), Some (L "A"));
  (([9] ++ L "foo.tldftp%20"), Some (L "foo.tldftp%2520"));
  ((L "//mailto#'"), Some (L "//mailto#'"));
  ((L "x-yfoo.tld+?"), Some (L "x-yfoo.tld%2B"));
  (([128512] ++ L "http:.;ftpfoo.tld-"), Some (L "%F0%9F%98%80http%3A.;ftpfoo.tld-"));
  ((L "ftp;" ++ [128512]), Some (L "ftp;" ++ [128512]));
  ((L ";"), Some ([]));
  ((L "_"), Some (L "_"));
  ((L "foo.tld?~x-y;ftp1"), Some (L "foo.tld?~x-y;ftp1"));
  ((L "Ax-y=:&]a[news"), Some (L "Ax-y%3D%3A%26%5Da%5Bnews"));
  ((L "&%="), Some (L "%26%25%3D"));
  ((L "~=mailto~!"), Some (L "~%3Dmailto~%21"));
  ((L "==httpsfoo.tld#&"), Some (L "%3D%3Dhttpsfoo.tld#&"));
  ((L ";http b c //news"), Some (L "%3Bhttp%20b%20c%20//news"));
  ((L "!foo.tld" ++ [10] ++ L "b c/httpmailto"), Some (L "%21foo.tldb%20c/httpmailto"));
  ((L "a&news!foo.tld+b ca."), Some (L "a%26news%21foo.tld%2Bb%20ca."));
  ((L "b cjavascriptb cx-y:"), Some (L "b%20cjavascriptb%20cx-y%3A"));
  ((L "1#~/ftpA_"), Some (L "1#~/ftpA_"));
  ((L "@"), Some (L "%40"));
  ((L "b c" ++ [233]), Some (L "b%20c%C3%A9"));
  ((L "#A?!;ftp&"), Some (L "#A?!;ftp&"));
  ((L "b c@.//a" ++ [8364] ++ L "#ftp]"), Some (L "b%20c%40.//a%E2%82%AC#ftp]"));
  ((L "_"), Some (L "_"));
  ((L "@" ++ [10]), Some (L "%40"));
  ((L "~=~'" ++ [8364] ++ L " @foo.tld" ++ [9]), Some (L "~%3D~%27%E2%82%AC%20%40foo.tld"));
  (([9] ++ L "?httpshttp1" ++ [10] ++ [8364] ++ [9] ++ [10]), Some (L "?httpshttp1" ++ [8364]));
  ((L "A&:"), Some (L "A%26%3A"));
  ((L "/."), Some (L "/."));
  ((L "foo.tldnews" ++ [9] ++ L "++ftpftp"), Some (L "foo.tldnews%2B%2Bftpftp"));
  ((L "news_+"), Some (L "news_%2B"));
  ((L "mailto+"), Some (L "mailto%2B"));
  ((L "/httpsx-y//#/1"), Some (L "/httpsx-y//#/1"));
  ((L "b c" ++ [233] ++ L "x-y." ++ [128512]), Some (L "b%20c%C3%A9x-y.%F0%9F%98%80"));
  ((L "_%" ++ [10]), Some (L "_%25"));
  (([128512] ++ L "+A"), Some (L "%F0%9F%98%80%2BA"));
  ((L "'" ++ [128512] ++ L "+" ++ [8364]), Some (L "%27%F0%9F%98%80%2B%E2%82%AC"));
  ((L "foo.tldftp#?&b c"), Some (L "foo.tldftp#?&b c"));
  ((L "_@b c" ++ [128512] ++ L "//"), Some (L "_%40b%20c%F0%9F%98%80//"));
  ((L "mailtofoo.tld" ++ [9] ++ L "]javascript':" ++ [128512] ++ L "["), Some (L "mailtofoo.tld%5Djavascript%27%3A%F0%9F%98%80%5B"));
  ((L "foo.tld" ++ [128512] ++ L "@foo.tld!afoo.tld"), Some (L "foo.tld%F0%9F%98%80%40foo.tld%21afoo.tld"));
  ((L "news" ++ [9] ++ [233] ++ L "?mailto%20"), Some (L "news%C3%A9?mailto%20"));
  (([128512] ++ L "~'_httpftp" ++ [233] ++ L "a%20"), Some (L "%F0%9F%98%80~%27_httpftp%C3%A9a%2520"));
  ((L "=+foo.tldmailto/1" ++ [233]), Some (L "%3D%2Bfoo.tldmailto/1%C3%A9"));
  ((L "https"), Some (L "https"));
  ((L "http"), Some (L "http"));
  ((L "~:javascript.[" ++ [233]), Some (L "~%3Ajavascript.%5B%C3%A9"));
  ((L "'~'/;foo.tldA"), Some (L "%27~%27/;foo.tldA"));
  ((L "/http" ++ [8364]), Some (L "/http%E2%82%AC"));
  (([9] ++ L ":x-y"), Some (L "%3Ax-y"));
  ((L "%&" ++ [128512]), Some (L "%25%26%F0%9F%98%80"));
  ((L "mailto"), Some (L "mailto"));
  ((L ".'" ++ [9] ++ L "javascript1" ++ [8364] ++ L "b chttpftp"), Some (L ".%27javascript1%E2%82%ACb%20chttpftp"));
  ((L "["), Some (L "%5B"));
  ((L "&"), Some (L "%26"));
  (([8364] ++ L "b cmailto"), Some (L "%E2%82%ACb%20cmailto"));
  ((L "http]"), Some (L "http%5D"));
  ((L "a=#javascript"), Some (L "a%3D#javascript"));
  ((L "=?+~x-y~mailtoA["), Some (L "%3D?+~x-y~mailtoA["));
  ((L "@"), Some (L "%40"));
  (([10] ++ L "news" ++ [9] ++ L "?" ++ [233] ++ L ":" ++ [128512]), Some (L "news?" ++ [233] ++ L ":" ++ [128512]));
  ((L "ftp//-" ++ [128512]), Some (L "ftp//-%F0%9F%98%80"));
  ((L "%"), Some (L "%25"));
  ((L " javascript" ++ [128512] ++ L "%20;news+httpb c"), Some (L "javascript%F0%9F%98%80%2520;news+httpb c"));
  (([8364] ++ L "#b c_#"), Some (L "%E2%82%AC#b c_#"));
  ((L "-" ++ [8364] ++ L "@[AAjavascript"), Some (L "-%E2%82%AC%40%5BAAjavascript"));
  ((L "https"), Some (L "https"));
  (([233] ++ L "!~;&'x-y"), Some (L "%C3%A9%21~;&'x-y"));
  ((L "aftphttps"), Some (L "aftphttps"));
  ((L ":b c"), Some (L "%3Ab%20c"));
  ((L "ahttpshttpsftp/ftp"), Some (L "ahttpshttpsftp/ftp"));
  ((L "ftpx-y"), Some (L "ftpx-y"));
  ((L "#[x-y@:" ++ [8364]), Some (L "#[x-y@:" ++ [8364]));
  ((L ";//ftpftp"), Some (L "%3B//ftpftp"));
  ((L "%20A"), Some (L "%2520A"));
  ((L "/:"), Some (L "/%3A"));
  ((L "%20_- "), Some (L "%2520_-%20"));
  ((L "https." ++ [128512] ++ L "%20mailto"), Some (L "https.%F0%9F%98%80%2520mailto"));
  ((L "_+A%20https="), Some (L "_%2BA%2520https%3D"));
  ((L " "), Some ([]));
  ((L ":.Amailto[!;news!"), Some (L "%3A.Amailto%5B%21;news!"));
  ((L "b c httpjavascript#"), Some (L "b%20c%20httpjavascript"));
  ((L "mailtohttp.1:"), Some (L "mailtohttp.1:"));
  ((L "?1'.+" ++ [128512] ++ L "!b c"), Some (L "?1'.+" ++ [128512] ++ L "!b c"));
  ((L ";" ++ [233] ++ L "1b c//"), Some (L "%3B%C3%A91b%20c//"));
  ((L "1]"), Some (L "1%5D"));
  ((L "_."), Some (L "_."));
  ((L "&&"), Some (L "%26%26"));
  ((L " https"), Some (L "https"));
  ((L ";~" ++ [128512] ++ L " [+"), Some (L ";~" ++ [128512] ++ L " [+"));
  ((L "@" ++ [233] ++ [10]), Some (L "%40%C3%A9"));
  ((L "[ftp."), Some (L "%5Bftp."));
  ((L "javascripta" ++ [9] ++ L "]_b c"), Some (L "javascripta%5D_b%20c"));
  (([9] ++ [128512] ++ L "'" ++ [233] ++ L "/-" ++ [10] ++ [8364]), Some (L "%F0%9F%98%80%27%C3%A9/-%E2%82%AC"));
  ((L "#%~aa" ++ [8364] ++ L "_javascript."), Some (L "#%~aa" ++ [8364] ++ L "_javascript."));
  (([8364] ++ L "_#"), Some (L "%E2%82%AC_"));
  ((L ":b c:#@"), Some (L "%3Ab%20c%3A#@"));
  ((L "a~~"), Some (L "a~~"));
  ((L "%#::%;@"), Some (L "%25#::%;@"));
  ((L "ftphttp& " ++ [233] ++ L "+%20" ++ [10]), Some (L "ftphttp%26%20%C3%A9%2B%2520"));
  ((L "a"), Some (L "a"));
  ((L "&http" ++ [8364] ++ L " !"), Some (L "%26http%E2%82%AC%20%21"));
  (([233] ++ L "'" ++ [233] ++ L "?//" ++ [10] ++ L " "), Some (L "%C3%A9%27%C3%A9?// "));
  (([128512] ++ L ":=" ++ [8364] ++ L "&b c"), Some (L "%F0%9F%98%80%3A%3D%E2%82%AC%26b%20c"));
  ((L " A" ++ [10] ++ L "https="), Some (L "Ahttps%3D"));
  ((L "?_http@1:ftp" ++ [128512] ++ L "["), Some (L "?_http@1:ftp" ++ [128512] ++ L "["));
  ((L "b c#javascript."), Some (L "b%20c#javascript."));
  ((L "!" ++ [10]), Some (L "%21"));
  ((L ";A+httpsfoo.tldjavascript-=" ++ [10]), Some (L ";A+httpsfoo.tldjavascript-="));
  ((L "?&+//"), Some (L "?&+//"));
  ((L "mailto" ++ [128512] ++ L "%@&mailto"), Some (L "mailto%F0%9F%98%80%25%40%26mailto"));
  ((L "x-y"), Some (L "x-y"));
  ((L "=.'" ++ [128512] ++ L ":" ++ [233] ++ L "~"), Some (L "%3D.%27%F0%9F%98%80%3A%C3%A9~"));
  ((L "javascript" ++ [233] ++ L "&" ++ [10] ++ L ";b c/"), Some (L "javascript%C3%A9%26%3Bb%20c/"));
  ((L "#A"), Some (L "#A"));
  (([233] ++ L "a.=" ++ [10] ++ L "%20]/A"), Some (L "%C3%A9a.%3D%2520%5D/A"));
  (([233] ++ L "%@" ++ [128512] ++ L " ?"), Some (L "%C3%A9%25%40%F0%9F%98%80%20"));
  ((L "http%." ++ [8364] ++ L "~_A1"), Some (L "http%25.%E2%82%AC~_A1"));
  ((L "newsfoo.tlda~@mailtonews"), Some (L "newsfoo.tlda~%40mailtonews"));
  ((L "/javascript.'httphttp"), Some (L "/javascript.%27httphttp"))].

Definition ok (c : str * option str) : bool :=
  match quote_link (VStr (fst c)), snd c with
  | Ok r, Some e => str_eqb r e
  | Exc EValueError, None => true
  | _, _ => false
  end.
Example conf_quote_link : forallb ok cases = true.
Proof. vm_compute. reflexivity. Qed.
