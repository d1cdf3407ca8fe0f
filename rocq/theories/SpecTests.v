(** * Tests of the model (generated by tools/gen_spectests.py)

    The 649 examples of spec.txt, the 13 examples of rst_tests.py and some of unit_tests.py,
    run on the model.  These are tests, not proofs: they check the model against the expected
    behaviour of the code. *)
From Verif Require Import Base Regex Common NormRef Node Inlines Blocks Html Rst Dump Main.

(** UTF-8 decoding of a literal *)
Fixpoint utf8 (l : str) : str :=
  match l with
  | [] => []
  | a :: l1 =>
      if N.ltb a 128 then a :: utf8 l1
      else match l1 with
           | [] => []
           | b :: l2 =>
               if N.ltb a 224 then ((a - 192) * 64 + (b - 128))%N :: utf8 l2
               else match l2 with
                    | [] => []
                    | c :: l3 =>
                        if N.ltb a 240
                        then ((a - 224) * 4096 + (b - 128) * 64 + (c - 128))%N :: utf8 l3
                        else match l3 with
                             | [] => []
                             | d :: l4 =>
                                 ((a - 240) * 262144 + (b - 128) * 4096 + (c - 128) * 64 + (d - 128))%N
                                   :: utf8 l4
                             end
                    end
           end
  end.
Definition w (x : ulit) : str := utf8 (u x).
Arguments w x%u.
Definition html_ok (e : str * str) : bool :=
  match md_to_html false default_opts (fst e) with Ok s => str_eqb s (snd e) | Err _ => false end.
Definition smart_ok (e : str * str) : bool :=
  match md_to_html true default_opts (fst e) with Ok s => str_eqb s (snd e) | Err _ => false end.
Definition rst_ok (e : str * str) : bool :=
  match (let* t := parse_doc false (fst e) in render_rst t) with Ok s => str_eqb s (snd e) | Err _ => false end.

Definition spec_1 : list (str * str) := [
(* 1 *) (w "	foo	baz		bim
", w "<pre><code>foo	baz		bim
</code></pre>
");
(* 2 *) (w "  	foo	baz		bim
", w "<pre><code>foo	baz		bim
</code></pre>
");
(* 3 *) (w "    a	a
    ὐ	a
", w "<pre><code>a	a
ὐ	a
</code></pre>
");
(* 4 *) (w "  - foo

	bar
", w "<ul>
<li>
<p>foo</p>
<p>bar</p>
</li>
</ul>
");
(* 5 *) (w "- foo

		bar
", w "<ul>
<li>
<p>foo</p>
<pre><code>  bar
</code></pre>
</li>
</ul>
");
(* 6 *) (w ">		foo
", w "<blockquote>
<pre><code>  foo
</code></pre>
</blockquote>
");
(* 7 *) (w "-		foo
", w "<ul>
<li>
<pre><code>  foo
</code></pre>
</li>
</ul>
");
(* 8 *) (w "    foo
	bar
", w "<pre><code>foo
bar
</code></pre>
");
(* 9 *) (w " - foo
   - bar
	 - baz
", w "<ul>
<li>foo
<ul>
<li>bar
<ul>
<li>baz</li>
</ul>
</li>
</ul>
</li>
</ul>
");
(* 10 *) (w "#	Foo
", w "<h1>Foo</h1>
");
(* 11 *) (w "*	*	*	
", w "<hr />
");
(* 12 *) (w "- `one
- two`
", w "<ul>
<li>`one</li>
<li>two`</li>
</ul>
");
(* 13 *) (w "***
---
___
", w "<hr />
<hr />
<hr />
");
(* 14 *) (w "+++
", w "<p>+++</p>
");
(* 15 *) (w "===
", w "<p>===</p>
");
(* 16 *) (w "--
**
__
", w "<p>--
**
__</p>
");
(* 17 *) (w " ***
  ***
   ***
", w "<hr />
<hr />
<hr />
");
(* 18 *) (w "    ***
", w "<pre><code>***
</code></pre>
");
(* 19 *) (w "Foo
    ***
", w "<p>Foo
***</p>
");
(* 20 *) (w "_____________________________________
", w "<hr />
");
(* 21 *) (w " - - -
", w "<hr />
");
(* 22 *) (w " **  * ** * ** * **
", w "<hr />
");
(* 23 *) (w "-     -      -      -
", w "<hr />
");
(* 24 *) (w "- - - -    
", w "<hr />
");
(* 25 *) (w "_ _ _ _ a

a------

---a---
", w "<p>_ _ _ _ a</p>
<p>a------</p>
<p>---a---</p>
");
(* 26 *) (w " *-*
", w "<p><em>-</em></p>
");
(* 27 *) (w "- foo
***
- bar
", w "<ul>
<li>foo</li>
</ul>
<hr />
<ul>
<li>bar</li>
</ul>
");
(* 28 *) (w "Foo
***
bar
", w "<p>Foo</p>
<hr />
<p>bar</p>
");
(* 29 *) (w "Foo
---
bar
", w "<h2>Foo</h2>
<p>bar</p>
");
(* 30 *) (w "* Foo
* * *
* Bar
", w "<ul>
<li>Foo</li>
</ul>
<hr />
<ul>
<li>Bar</li>
</ul>
");
(* 31 *) (w "- Foo
- * * *
", w "<ul>
<li>Foo</li>
<li>
<hr />
</li>
</ul>
");
(* 32 *) (w "# foo
## foo
### foo
#### foo
##### foo
###### foo
", w "<h1>foo</h1>
<h2>foo</h2>
<h3>foo</h3>
<h4>foo</h4>
<h5>foo</h5>
<h6>foo</h6>
");
(* 33 *) (w "####### foo
", w "<p>####### foo</p>
");
(* 34 *) (w "#5 bolt

#hashtag
", w "<p>#5 bolt</p>
<p>#hashtag</p>
");
(* 35 *) (w "\## foo
", w "<p>## foo</p>
");
(* 36 *) (w "# foo *bar* \*baz\*
", w "<h1>foo <em>bar</em> *baz*</h1>
");
(* 37 *) (w "#                  foo                     
", w "<h1>foo</h1>
");
(* 38 *) (w " ### foo
  ## foo
   # foo
", w "<h3>foo</h3>
<h2>foo</h2>
<h1>foo</h1>
");
(* 39 *) (w "    # foo
", w "<pre><code># foo
</code></pre>
");
(* 40 *) (w "foo
    # bar
", w "<p>foo
# bar</p>
");
(* 41 *) (w "## foo ##
  ###   bar    ###
", w "<h2>foo</h2>
<h3>bar</h3>
");
(* 42 *) (w "# foo ##################################
##### foo ##
", w "<h1>foo</h1>
<h5>foo</h5>
");
(* 43 *) (w "### foo ###     
", w "<h3>foo</h3>
");
(* 44 *) (w "### foo ### b
", w "<h3>foo ### b</h3>
");
(* 45 *) (w "# foo#
", w "<h1>foo#</h1>
");
(* 46 *) (w "### foo \###
## foo #\##
# foo \#
", w "<h3>foo ###</h3>
<h2>foo ###</h2>
<h1>foo #</h1>
");
(* 47 *) (w "****
## foo
****
", w "<hr />
<h2>foo</h2>
<hr />
");
(* 48 *) (w "Foo bar
# baz
Bar foo
", w "<p>Foo bar</p>
<h1>baz</h1>
<p>Bar foo</p>
");
(* 49 *) (w "## 
#
### ###
", w "<h2></h2>
<h1></h1>
<h3></h3>
");
(* 50 *) (w "Foo *bar*
=========

Foo *bar*
---------
", w "<h1>Foo <em>bar</em></h1>
<h2>Foo <em>bar</em></h2>
")
].
Example spec_1_ok : map html_ok spec_1 = repeat true 50.
Proof. vm_compute. reflexivity. Qed.

Definition spec_51 : list (str * str) := [
(* 51 *) (w "Foo *bar
baz*
====
", w "<h1>Foo <em>bar
baz</em></h1>
");
(* 52 *) (w "  Foo *bar
baz*	
====
", w "<h1>Foo <em>bar
baz</em></h1>
");
(* 53 *) (w "Foo
-------------------------

Foo
=
", w "<h2>Foo</h2>
<h1>Foo</h1>
");
(* 54 *) (w "   Foo
---

  Foo
-----

  Foo
  ===
", w "<h2>Foo</h2>
<h2>Foo</h2>
<h1>Foo</h1>
");
(* 55 *) (w "    Foo
    ---

    Foo
---
", w "<pre><code>Foo
---

Foo
</code></pre>
<hr />
");
(* 56 *) (w "Foo
   ----      
", w "<h2>Foo</h2>
");
(* 57 *) (w "Foo
    ---
", w "<p>Foo
---</p>
");
(* 58 *) (w "Foo
= =

Foo
--- -
", w "<p>Foo
= =</p>
<p>Foo</p>
<hr />
");
(* 59 *) (w "Foo  
-----
", w "<h2>Foo</h2>
");
(* 60 *) (w "Foo\
----
", w "<h2>Foo\</h2>
");
(* 61 *) (w "`Foo
----
`

<a title=""a lot
---
of dashes""/>
", w "<h2>`Foo</h2>
<p>`</p>
<h2>&lt;a title=&quot;a lot</h2>
<p>of dashes&quot;/&gt;</p>
");
(* 62 *) (w "> Foo
---
", w "<blockquote>
<p>Foo</p>
</blockquote>
<hr />
");
(* 63 *) (w "> foo
bar
===
", w "<blockquote>
<p>foo
bar
===</p>
</blockquote>
");
(* 64 *) (w "- Foo
---
", w "<ul>
<li>Foo</li>
</ul>
<hr />
");
(* 65 *) (w "Foo
Bar
---
", w "<h2>Foo
Bar</h2>
");
(* 66 *) (w "---
Foo
---
Bar
---
Baz
", w "<hr />
<h2>Foo</h2>
<h2>Bar</h2>
<p>Baz</p>
");
(* 67 *) (w "
====
", w "<p>====</p>
");
(* 68 *) (w "---
---
", w "<hr />
<hr />
");
(* 69 *) (w "- foo
-----
", w "<ul>
<li>foo</li>
</ul>
<hr />
");
(* 70 *) (w "    foo
---
", w "<pre><code>foo
</code></pre>
<hr />
");
(* 71 *) (w "> foo
-----
", w "<blockquote>
<p>foo</p>
</blockquote>
<hr />
");
(* 72 *) (w "\> foo
------
", w "<h2>&gt; foo</h2>
");
(* 73 *) (w "Foo

bar
---
baz
", w "<p>Foo</p>
<h2>bar</h2>
<p>baz</p>
");
(* 74 *) (w "Foo
bar

---

baz
", w "<p>Foo
bar</p>
<hr />
<p>baz</p>
");
(* 75 *) (w "Foo
bar
* * *
baz
", w "<p>Foo
bar</p>
<hr />
<p>baz</p>
");
(* 76 *) (w "Foo
bar
\---
baz
", w "<p>Foo
bar
---
baz</p>
");
(* 77 *) (w "    a simple
      indented code block
", w "<pre><code>a simple
  indented code block
</code></pre>
");
(* 78 *) (w "  - foo

    bar
", w "<ul>
<li>
<p>foo</p>
<p>bar</p>
</li>
</ul>
");
(* 79 *) (w "1.  foo

    - bar
", w "<ol>
<li>
<p>foo</p>
<ul>
<li>bar</li>
</ul>
</li>
</ol>
");
(* 80 *) (w "    <a/>
    *hi*

    - one
", w "<pre><code>&lt;a/&gt;
*hi*

- one
</code></pre>
");
(* 81 *) (w "    chunk1

    chunk2
  
 
 
    chunk3
", w "<pre><code>chunk1

chunk2



chunk3
</code></pre>
");
(* 82 *) (w "    chunk1
      
      chunk2
", w "<pre><code>chunk1
  
  chunk2
</code></pre>
");
(* 83 *) (w "Foo
    bar

", w "<p>Foo
bar</p>
");
(* 84 *) (w "    foo
bar
", w "<pre><code>foo
</code></pre>
<p>bar</p>
");
(* 85 *) (w "# Heading
    foo
Heading
------
    foo
----
", w "<h1>Heading</h1>
<pre><code>foo
</code></pre>
<h2>Heading</h2>
<pre><code>foo
</code></pre>
<hr />
");
(* 86 *) (w "        foo
    bar
", w "<pre><code>    foo
bar
</code></pre>
");
(* 87 *) (w "
    
    foo
    

", w "<pre><code>foo
</code></pre>
");
(* 88 *) (w "    foo  
", w "<pre><code>foo  
</code></pre>
");
(* 89 *) (w "```
<
 >
```
", w "<pre><code>&lt;
 &gt;
</code></pre>
");
(* 90 *) (w "~~~
<
 >
~~~
", w "<pre><code>&lt;
 &gt;
</code></pre>
");
(* 91 *) (w "``
foo
``
", w "<p><code>foo</code></p>
");
(* 92 *) (w "```
aaa
~~~
```
", w "<pre><code>aaa
~~~
</code></pre>
");
(* 93 *) (w "~~~
aaa
```
~~~
", w "<pre><code>aaa
```
</code></pre>
");
(* 94 *) (w "````
aaa
```
``````
", w "<pre><code>aaa
```
</code></pre>
");
(* 95 *) (w "~~~~
aaa
~~~
~~~~
", w "<pre><code>aaa
~~~
</code></pre>
");
(* 96 *) (w "```
", w "<pre><code></code></pre>
");
(* 97 *) (w "`````

```
aaa
", w "<pre><code>
```
aaa
</code></pre>
");
(* 98 *) (w "> ```
> aaa

bbb
", w "<blockquote>
<pre><code>aaa
</code></pre>
</blockquote>
<p>bbb</p>
");
(* 99 *) (w "```

  
```
", w "<pre><code>
  
</code></pre>
");
(* 100 *) (w "```
```
", w "<pre><code></code></pre>
")
].
Example spec_51_ok : map html_ok spec_51 = repeat true 50.
Proof. vm_compute. reflexivity. Qed.

Definition spec_101 : list (str * str) := [
(* 101 *) (w " ```
 aaa
aaa
```
", w "<pre><code>aaa
aaa
</code></pre>
");
(* 102 *) (w "  ```
aaa
  aaa
aaa
  ```
", w "<pre><code>aaa
aaa
aaa
</code></pre>
");
(* 103 *) (w "   ```
   aaa
    aaa
  aaa
   ```
", w "<pre><code>aaa
 aaa
aaa
</code></pre>
");
(* 104 *) (w "    ```
    aaa
    ```
", w "<pre><code>```
aaa
```
</code></pre>
");
(* 105 *) (w "```
aaa
  ```
", w "<pre><code>aaa
</code></pre>
");
(* 106 *) (w "   ```
aaa
  ```
", w "<pre><code>aaa
</code></pre>
");
(* 107 *) (w "```
aaa
    ```
", w "<pre><code>aaa
    ```
</code></pre>
");
(* 108 *) (w "``` ```
aaa
", w "<p><code> </code>
aaa</p>
");
(* 109 *) (w "~~~~~~
aaa
~~~ ~~
", w "<pre><code>aaa
~~~ ~~
</code></pre>
");
(* 110 *) (w "foo
```
bar
```
baz
", w "<p>foo</p>
<pre><code>bar
</code></pre>
<p>baz</p>
");
(* 111 *) (w "foo
---
~~~
bar
~~~
# baz
", w "<h2>foo</h2>
<pre><code>bar
</code></pre>
<h1>baz</h1>
");
(* 112 *) (w "```ruby
def foo(x)
  return 3
end
```
", w "<pre><code class=""language-ruby"">def foo(x)
  return 3
end
</code></pre>
");
(* 113 *) (w "~~~~    ruby startline=3 $%@#$
def foo(x)
  return 3
end
~~~~~~~
", w "<pre><code class=""language-ruby"">def foo(x)
  return 3
end
</code></pre>
");
(* 114 *) (w "````;
````
", w "<pre><code class=""language-;""></code></pre>
");
(* 115 *) (w "``` aa ```
foo
", w "<p><code>aa</code>
foo</p>
");
(* 116 *) (w "~~~ aa ``` ~~~
foo
~~~
", w "<pre><code class=""language-aa"">foo
</code></pre>
");
(* 117 *) (w "```
``` aaa
```
", w "<pre><code>``` aaa
</code></pre>
");
(* 118 *) (w "<table><tr><td>
<pre>
**Hello**,

_world_.
</pre>
</td></tr></table>
", w "<table><tr><td>
<pre>
**Hello**,
<p><em>world</em>.
</pre></p>
</td></tr></table>
");
(* 119 *) (w "<table>
  <tr>
    <td>
           hi
    </td>
  </tr>
</table>

okay.
", w "<table>
  <tr>
    <td>
           hi
    </td>
  </tr>
</table>
<p>okay.</p>
");
(* 120 *) (w " <div>
  *hello*
         <foo><a>
", w " <div>
  *hello*
         <foo><a>
");
(* 121 *) (w "</div>
*foo*
", w "</div>
*foo*
");
(* 122 *) (w "<DIV CLASS=""foo"">

*Markdown*

</DIV>
", w "<DIV CLASS=""foo"">
<p><em>Markdown</em></p>
</DIV>
");
(* 123 *) (w "<div id=""foo""
  class=""bar"">
</div>
", w "<div id=""foo""
  class=""bar"">
</div>
");
(* 124 *) (w "<div id=""foo"" class=""bar
  baz"">
</div>
", w "<div id=""foo"" class=""bar
  baz"">
</div>
");
(* 125 *) (w "<div>
*foo*

*bar*
", w "<div>
*foo*
<p><em>bar</em></p>
");
(* 126 *) (w "<div id=""foo""
*hi*
", w "<div id=""foo""
*hi*
");
(* 127 *) (w "<div class
foo
", w "<div class
foo
");
(* 128 *) (w "<div *???-&&&-<---
*foo*
", w "<div *???-&&&-<---
*foo*
");
(* 129 *) (w "<div><a href=""bar"">*foo*</a></div>
", w "<div><a href=""bar"">*foo*</a></div>
");
(* 130 *) (w "<table><tr><td>
foo
</td></tr></table>
", w "<table><tr><td>
foo
</td></tr></table>
");
(* 131 *) (w "<div></div>
``` c
int x = 33;
```
", w "<div></div>
``` c
int x = 33;
```
");
(* 132 *) (w "<a href=""foo"">
*bar*
</a>
", w "<a href=""foo"">
*bar*
</a>
");
(* 133 *) (w "<Warning>
*bar*
</Warning>
", w "<Warning>
*bar*
</Warning>
");
(* 134 *) (w "<i class=""foo"">
*bar*
</i>
", w "<i class=""foo"">
*bar*
</i>
");
(* 135 *) (w "</ins>
*bar*
", w "</ins>
*bar*
");
(* 136 *) (w "<del>
*foo*
</del>
", w "<del>
*foo*
</del>
");
(* 137 *) (w "<del>

*foo*

</del>
", w "<del>
<p><em>foo</em></p>
</del>
");
(* 138 *) (w "<del>*foo*</del>
", w "<p><del><em>foo</em></del></p>
");
(* 139 *) (w "<pre language=""haskell""><code>
import Text.HTML.TagSoup

main :: IO ()
main = print $ parseTags tags
</code></pre>
okay
", w "<pre language=""haskell""><code>
import Text.HTML.TagSoup

main :: IO ()
main = print $ parseTags tags
</code></pre>
<p>okay</p>
");
(* 140 *) (w "<script type=""text/javascript"">
// JavaScript example

document.getElementById(""demo"").innerHTML = ""Hello JavaScript!"";
</script>
okay
", w "<script type=""text/javascript"">
// JavaScript example

document.getElementById(""demo"").innerHTML = ""Hello JavaScript!"";
</script>
<p>okay</p>
");
(* 141 *) (w "<style
  type=""text/css"">
h1 {color:red;}

p {color:blue;}
</style>
okay
", w "<style
  type=""text/css"">
h1 {color:red;}

p {color:blue;}
</style>
<p>okay</p>
");
(* 142 *) (w "<style
  type=""text/css"">

foo
", w "<style
  type=""text/css"">

foo
");
(* 143 *) (w "> <div>
> foo

bar
", w "<blockquote>
<div>
foo
</blockquote>
<p>bar</p>
");
(* 144 *) (w "- <div>
- foo
", w "<ul>
<li>
<div>
</li>
<li>foo</li>
</ul>
");
(* 145 *) (w "<style>p{color:red;}</style>
*foo*
", w "<style>p{color:red;}</style>
<p><em>foo</em></p>
");
(* 146 *) (w "<!-- foo -->*bar*
*baz*
", w "<!-- foo -->*bar*
<p><em>baz</em></p>
");
(* 147 *) (w "<script>
foo
</script>1. *bar*
", w "<script>
foo
</script>1. *bar*
");
(* 148 *) (w "<!-- Foo

bar
   baz -->
okay
", w "<!-- Foo

bar
   baz -->
<p>okay</p>
");
(* 149 *) (w "<?php

  echo '>';

?>
okay
", w "<?php

  echo '>';

?>
<p>okay</p>
");
(* 150 *) (w "<!DOCTYPE html>
", w "<!DOCTYPE html>
")
].
Example spec_101_ok : map html_ok spec_101 = repeat true 50.
Proof. vm_compute. reflexivity. Qed.

Definition spec_151 : list (str * str) := [
(* 151 *) (w "<![CDATA[
function matchwo(a,b)
{
  if (a < b && a < 0) then {
    return 1;

  } else {

    return 0;
  }
}
]]>
okay
", w "<![CDATA[
function matchwo(a,b)
{
  if (a < b && a < 0) then {
    return 1;

  } else {

    return 0;
  }
}
]]>
<p>okay</p>
");
(* 152 *) (w "  <!-- foo -->

    <!-- foo -->
", w "  <!-- foo -->
<pre><code>&lt;!-- foo --&gt;
</code></pre>
");
(* 153 *) (w "  <div>

    <div>
", w "  <div>
<pre><code>&lt;div&gt;
</code></pre>
");
(* 154 *) (w "Foo
<div>
bar
</div>
", w "<p>Foo</p>
<div>
bar
</div>
");
(* 155 *) (w "<div>
bar
</div>
*foo*
", w "<div>
bar
</div>
*foo*
");
(* 156 *) (w "Foo
<a href=""bar"">
baz
", w "<p>Foo
<a href=""bar"">
baz</p>
");
(* 157 *) (w "<div>

*Emphasized* text.

</div>
", w "<div>
<p><em>Emphasized</em> text.</p>
</div>
");
(* 158 *) (w "<div>
*Emphasized* text.
</div>
", w "<div>
*Emphasized* text.
</div>
");
(* 159 *) (w "<table>

<tr>

<td>
Hi
</td>

</tr>

</table>
", w "<table>
<tr>
<td>
Hi
</td>
</tr>
</table>
");
(* 160 *) (w "<table>

  <tr>

    <td>
      Hi
    </td>

  </tr>

</table>
", w "<table>
  <tr>
<pre><code>&lt;td&gt;
  Hi
&lt;/td&gt;
</code></pre>
  </tr>
</table>
");
(* 161 *) (w "[foo]: /url ""title""

[foo]
", w "<p><a href=""/url"" title=""title"">foo</a></p>
");
(* 162 *) (w "   [foo]: 
      /url  
           'the title'  

[foo]
", w "<p><a href=""/url"" title=""the title"">foo</a></p>
");
(* 163 *) (w "[Foo*bar\]]:my_(url) 'title (with parens)'

[Foo*bar\]]
", w "<p><a href=""my_(url)"" title=""title (with parens)"">Foo*bar]</a></p>
");
(* 164 *) (w "[Foo bar]:
<my url>
'title'

[Foo bar]
", w "<p><a href=""my%20url"" title=""title"">Foo bar</a></p>
");
(* 165 *) (w "[foo]: /url '
title
line1
line2
'

[foo]
", w "<p><a href=""/url"" title=""
title
line1
line2
"">foo</a></p>
");
(* 166 *) (w "[foo]: /url 'title

with blank line'

[foo]
", w "<p>[foo]: /url 'title</p>
<p>with blank line'</p>
<p>[foo]</p>
");
(* 167 *) (w "[foo]:
/url

[foo]
", w "<p><a href=""/url"">foo</a></p>
");
(* 168 *) (w "[foo]:

[foo]
", w "<p>[foo]:</p>
<p>[foo]</p>
");
(* 169 *) (w "[foo]: <>

[foo]
", w "<p><a href="""">foo</a></p>
");
(* 170 *) (w "[foo]: <bar>(baz)

[foo]
", w "<p>[foo]: <bar>(baz)</p>
<p>[foo]</p>
");
(* 171 *) (w "[foo]: /url\bar\*baz ""foo\""bar\baz""

[foo]
", w "<p><a href=""/url%5Cbar*baz"" title=""foo&quot;bar\baz"">foo</a></p>
");
(* 172 *) (w "[foo]

[foo]: url
", w "<p><a href=""url"">foo</a></p>
");
(* 173 *) (w "[foo]

[foo]: first
[foo]: second
", w "<p><a href=""first"">foo</a></p>
");
(* 174 *) (w "[FOO]: /url

[Foo]
", w "<p><a href=""/url"">Foo</a></p>
");
(* 175 *) (w "[ΑΓΩ]: /φου

[αγω]
", w "<p><a href=""/%CF%86%CE%BF%CF%85"">αγω</a></p>
");
(* 176 *) (w "[foo]: /url
", w "");
(* 177 *) (w "[
foo
]: /url
bar
", w "<p>bar</p>
");
(* 178 *) (w "[foo]: /url ""title"" ok
", w "<p>[foo]: /url &quot;title&quot; ok</p>
");
(* 179 *) (w "[foo]: /url
""title"" ok
", w "<p>&quot;title&quot; ok</p>
");
(* 180 *) (w "    [foo]: /url ""title""

[foo]
", w "<pre><code>[foo]: /url &quot;title&quot;
</code></pre>
<p>[foo]</p>
");
(* 181 *) (w "```
[foo]: /url
```

[foo]
", w "<pre><code>[foo]: /url
</code></pre>
<p>[foo]</p>
");
(* 182 *) (w "Foo
[bar]: /baz

[bar]
", w "<p>Foo
[bar]: /baz</p>
<p>[bar]</p>
");
(* 183 *) (w "# [Foo]
[foo]: /url
> bar
", w "<h1><a href=""/url"">Foo</a></h1>
<blockquote>
<p>bar</p>
</blockquote>
");
(* 184 *) (w "[foo]: /url
bar
===
[foo]
", w "<h1>bar</h1>
<p><a href=""/url"">foo</a></p>
");
(* 185 *) (w "[foo]: /url
===
[foo]
", w "<p>===
<a href=""/url"">foo</a></p>
");
(* 186 *) (w "[foo]: /foo-url ""foo""
[bar]: /bar-url
  ""bar""
[baz]: /baz-url

[foo],
[bar],
[baz]
", w "<p><a href=""/foo-url"" title=""foo"">foo</a>,
<a href=""/bar-url"" title=""bar"">bar</a>,
<a href=""/baz-url"">baz</a></p>
");
(* 187 *) (w "[foo]

> [foo]: /url
", w "<p><a href=""/url"">foo</a></p>
<blockquote>
</blockquote>
");
(* 188 *) (w "[foo]: /url
", w "");
(* 189 *) (w "aaa

bbb
", w "<p>aaa</p>
<p>bbb</p>
");
(* 190 *) (w "aaa
bbb

ccc
ddd
", w "<p>aaa
bbb</p>
<p>ccc
ddd</p>
");
(* 191 *) (w "aaa


bbb
", w "<p>aaa</p>
<p>bbb</p>
");
(* 192 *) (w "  aaa
 bbb
", w "<p>aaa
bbb</p>
");
(* 193 *) (w "aaa
             bbb
                                       ccc
", w "<p>aaa
bbb
ccc</p>
");
(* 194 *) (w "   aaa
bbb
", w "<p>aaa
bbb</p>
");
(* 195 *) (w "    aaa
bbb
", w "<pre><code>aaa
</code></pre>
<p>bbb</p>
");
(* 196 *) (w "aaa     
bbb     
", w "<p>aaa<br />
bbb</p>
");
(* 197 *) (w "  

aaa
  

# aaa

  
", w "<p>aaa</p>
<h1>aaa</h1>
");
(* 198 *) (w "> # Foo
> bar
> baz
", w "<blockquote>
<h1>Foo</h1>
<p>bar
baz</p>
</blockquote>
");
(* 199 *) (w "># Foo
>bar
> baz
", w "<blockquote>
<h1>Foo</h1>
<p>bar
baz</p>
</blockquote>
");
(* 200 *) (w "   > # Foo
   > bar
 > baz
", w "<blockquote>
<h1>Foo</h1>
<p>bar
baz</p>
</blockquote>
")
].
Example spec_151_ok : map html_ok spec_151 = repeat true 50.
Proof. vm_compute. reflexivity. Qed.

Definition spec_201 : list (str * str) := [
(* 201 *) (w "    > # Foo
    > bar
    > baz
", w "<pre><code>&gt; # Foo
&gt; bar
&gt; baz
</code></pre>
");
(* 202 *) (w "> # Foo
> bar
baz
", w "<blockquote>
<h1>Foo</h1>
<p>bar
baz</p>
</blockquote>
");
(* 203 *) (w "> bar
baz
> foo
", w "<blockquote>
<p>bar
baz
foo</p>
</blockquote>
");
(* 204 *) (w "> foo
---
", w "<blockquote>
<p>foo</p>
</blockquote>
<hr />
");
(* 205 *) (w "> - foo
- bar
", w "<blockquote>
<ul>
<li>foo</li>
</ul>
</blockquote>
<ul>
<li>bar</li>
</ul>
");
(* 206 *) (w ">     foo
    bar
", w "<blockquote>
<pre><code>foo
</code></pre>
</blockquote>
<pre><code>bar
</code></pre>
");
(* 207 *) (w "> ```
foo
```
", w "<blockquote>
<pre><code></code></pre>
</blockquote>
<p>foo</p>
<pre><code></code></pre>
");
(* 208 *) (w "> foo
    - bar
", w "<blockquote>
<p>foo
- bar</p>
</blockquote>
");
(* 209 *) (w ">
", w "<blockquote>
</blockquote>
");
(* 210 *) (w ">
>  
> 
", w "<blockquote>
</blockquote>
");
(* 211 *) (w ">
> foo
>  
", w "<blockquote>
<p>foo</p>
</blockquote>
");
(* 212 *) (w "> foo

> bar
", w "<blockquote>
<p>foo</p>
</blockquote>
<blockquote>
<p>bar</p>
</blockquote>
");
(* 213 *) (w "> foo
> bar
", w "<blockquote>
<p>foo
bar</p>
</blockquote>
");
(* 214 *) (w "> foo
>
> bar
", w "<blockquote>
<p>foo</p>
<p>bar</p>
</blockquote>
");
(* 215 *) (w "foo
> bar
", w "<p>foo</p>
<blockquote>
<p>bar</p>
</blockquote>
");
(* 216 *) (w "> aaa
***
> bbb
", w "<blockquote>
<p>aaa</p>
</blockquote>
<hr />
<blockquote>
<p>bbb</p>
</blockquote>
");
(* 217 *) (w "> bar
baz
", w "<blockquote>
<p>bar
baz</p>
</blockquote>
");
(* 218 *) (w "> bar

baz
", w "<blockquote>
<p>bar</p>
</blockquote>
<p>baz</p>
");
(* 219 *) (w "> bar
>
baz
", w "<blockquote>
<p>bar</p>
</blockquote>
<p>baz</p>
");
(* 220 *) (w "> > > foo
bar
", w "<blockquote>
<blockquote>
<blockquote>
<p>foo
bar</p>
</blockquote>
</blockquote>
</blockquote>
");
(* 221 *) (w ">>> foo
> bar
>>baz
", w "<blockquote>
<blockquote>
<blockquote>
<p>foo
bar
baz</p>
</blockquote>
</blockquote>
</blockquote>
");
(* 222 *) (w ">     code

>    not code
", w "<blockquote>
<pre><code>code
</code></pre>
</blockquote>
<blockquote>
<p>not code</p>
</blockquote>
");
(* 223 *) (w "A paragraph
with two lines.

    indented code

> A block quote.
", w "<p>A paragraph
with two lines.</p>
<pre><code>indented code
</code></pre>
<blockquote>
<p>A block quote.</p>
</blockquote>
");
(* 224 *) (w "1.  A paragraph
    with two lines.

        indented code

    > A block quote.
", w "<ol>
<li>
<p>A paragraph
with two lines.</p>
<pre><code>indented code
</code></pre>
<blockquote>
<p>A block quote.</p>
</blockquote>
</li>
</ol>
");
(* 225 *) (w "- one

 two
", w "<ul>
<li>one</li>
</ul>
<p>two</p>
");
(* 226 *) (w "- one

  two
", w "<ul>
<li>
<p>one</p>
<p>two</p>
</li>
</ul>
");
(* 227 *) (w " -    one

     two
", w "<ul>
<li>one</li>
</ul>
<pre><code> two
</code></pre>
");
(* 228 *) (w " -    one

      two
", w "<ul>
<li>
<p>one</p>
<p>two</p>
</li>
</ul>
");
(* 229 *) (w "   > > 1.  one
>>
>>     two
", w "<blockquote>
<blockquote>
<ol>
<li>
<p>one</p>
<p>two</p>
</li>
</ol>
</blockquote>
</blockquote>
");
(* 230 *) (w ">>- one
>>
  >  > two
", w "<blockquote>
<blockquote>
<ul>
<li>one</li>
</ul>
<p>two</p>
</blockquote>
</blockquote>
");
(* 231 *) (w "-one

2.two
", w "<p>-one</p>
<p>2.two</p>
");
(* 232 *) (w "- foo


  bar
", w "<ul>
<li>
<p>foo</p>
<p>bar</p>
</li>
</ul>
");
(* 233 *) (w "1.  foo

    ```
    bar
    ```

    baz

    > bam
", w "<ol>
<li>
<p>foo</p>
<pre><code>bar
</code></pre>
<p>baz</p>
<blockquote>
<p>bam</p>
</blockquote>
</li>
</ol>
");
(* 234 *) (w "- Foo

      bar


      baz
", w "<ul>
<li>
<p>Foo</p>
<pre><code>bar


baz
</code></pre>
</li>
</ul>
");
(* 235 *) (w "123456789. ok
", w "<ol start=""123456789"">
<li>ok</li>
</ol>
");
(* 236 *) (w "1234567890. not ok
", w "<p>1234567890. not ok</p>
");
(* 237 *) (w "0. ok
", w "<ol start=""0"">
<li>ok</li>
</ol>
");
(* 238 *) (w "003. ok
", w "<ol start=""3"">
<li>ok</li>
</ol>
");
(* 239 *) (w "-1. not ok
", w "<p>-1. not ok</p>
");
(* 240 *) (w "- foo

      bar
", w "<ul>
<li>
<p>foo</p>
<pre><code>bar
</code></pre>
</li>
</ul>
");
(* 241 *) (w "  10.  foo

           bar
", w "<ol start=""10"">
<li>
<p>foo</p>
<pre><code>bar
</code></pre>
</li>
</ol>
");
(* 242 *) (w "    indented code

paragraph

    more code
", w "<pre><code>indented code
</code></pre>
<p>paragraph</p>
<pre><code>more code
</code></pre>
");
(* 243 *) (w "1.     indented code

   paragraph

       more code
", w "<ol>
<li>
<pre><code>indented code
</code></pre>
<p>paragraph</p>
<pre><code>more code
</code></pre>
</li>
</ol>
");
(* 244 *) (w "1.      indented code

   paragraph

       more code
", w "<ol>
<li>
<pre><code> indented code
</code></pre>
<p>paragraph</p>
<pre><code>more code
</code></pre>
</li>
</ol>
");
(* 245 *) (w "   foo

bar
", w "<p>foo</p>
<p>bar</p>
");
(* 246 *) (w "-    foo

  bar
", w "<ul>
<li>foo</li>
</ul>
<p>bar</p>
");
(* 247 *) (w "-  foo

   bar
", w "<ul>
<li>
<p>foo</p>
<p>bar</p>
</li>
</ul>
");
(* 248 *) (w "-
  foo
-
  ```
  bar
  ```
-
      baz
", w "<ul>
<li>foo</li>
<li>
<pre><code>bar
</code></pre>
</li>
<li>
<pre><code>baz
</code></pre>
</li>
</ul>
");
(* 249 *) (w "-   
  foo
", w "<ul>
<li>foo</li>
</ul>
");
(* 250 *) (w "-

  foo
", w "<ul>
<li></li>
</ul>
<p>foo</p>
")
].
Example spec_201_ok : map html_ok spec_201 = repeat true 50.
Proof. vm_compute. reflexivity. Qed.

Definition spec_251 : list (str * str) := [
(* 251 *) (w "- foo
-
- bar
", w "<ul>
<li>foo</li>
<li></li>
<li>bar</li>
</ul>
");
(* 252 *) (w "- foo
-   
- bar
", w "<ul>
<li>foo</li>
<li></li>
<li>bar</li>
</ul>
");
(* 253 *) (w "1. foo
2.
3. bar
", w "<ol>
<li>foo</li>
<li></li>
<li>bar</li>
</ol>
");
(* 254 *) (w "*
", w "<ul>
<li></li>
</ul>
");
(* 255 *) (w "foo
*

foo
1.
", w "<p>foo
*</p>
<p>foo
1.</p>
");
(* 256 *) (w " 1.  A paragraph
     with two lines.

         indented code

     > A block quote.
", w "<ol>
<li>
<p>A paragraph
with two lines.</p>
<pre><code>indented code
</code></pre>
<blockquote>
<p>A block quote.</p>
</blockquote>
</li>
</ol>
");
(* 257 *) (w "  1.  A paragraph
      with two lines.

          indented code

      > A block quote.
", w "<ol>
<li>
<p>A paragraph
with two lines.</p>
<pre><code>indented code
</code></pre>
<blockquote>
<p>A block quote.</p>
</blockquote>
</li>
</ol>
");
(* 258 *) (w "   1.  A paragraph
       with two lines.

           indented code

       > A block quote.
", w "<ol>
<li>
<p>A paragraph
with two lines.</p>
<pre><code>indented code
</code></pre>
<blockquote>
<p>A block quote.</p>
</blockquote>
</li>
</ol>
");
(* 259 *) (w "    1.  A paragraph
        with two lines.

            indented code

        > A block quote.
", w "<pre><code>1.  A paragraph
    with two lines.

        indented code

    &gt; A block quote.
</code></pre>
");
(* 260 *) (w "  1.  A paragraph
with two lines.

          indented code

      > A block quote.
", w "<ol>
<li>
<p>A paragraph
with two lines.</p>
<pre><code>indented code
</code></pre>
<blockquote>
<p>A block quote.</p>
</blockquote>
</li>
</ol>
");
(* 261 *) (w "  1.  A paragraph
    with two lines.
", w "<ol>
<li>A paragraph
with two lines.</li>
</ol>
");
(* 262 *) (w "> 1. > Blockquote
continued here.
", w "<blockquote>
<ol>
<li>
<blockquote>
<p>Blockquote
continued here.</p>
</blockquote>
</li>
</ol>
</blockquote>
");
(* 263 *) (w "> 1. > Blockquote
> continued here.
", w "<blockquote>
<ol>
<li>
<blockquote>
<p>Blockquote
continued here.</p>
</blockquote>
</li>
</ol>
</blockquote>
");
(* 264 *) (w "- foo
  - bar
    - baz
      - boo
", w "<ul>
<li>foo
<ul>
<li>bar
<ul>
<li>baz
<ul>
<li>boo</li>
</ul>
</li>
</ul>
</li>
</ul>
</li>
</ul>
");
(* 265 *) (w "- foo
 - bar
  - baz
   - boo
", w "<ul>
<li>foo</li>
<li>bar</li>
<li>baz</li>
<li>boo</li>
</ul>
");
(* 266 *) (w "10) foo
    - bar
", w "<ol start=""10"">
<li>foo
<ul>
<li>bar</li>
</ul>
</li>
</ol>
");
(* 267 *) (w "10) foo
   - bar
", w "<ol start=""10"">
<li>foo</li>
</ol>
<ul>
<li>bar</li>
</ul>
");
(* 268 *) (w "- - foo
", w "<ul>
<li>
<ul>
<li>foo</li>
</ul>
</li>
</ul>
");
(* 269 *) (w "1. - 2. foo
", w "<ol>
<li>
<ul>
<li>
<ol start=""2"">
<li>foo</li>
</ol>
</li>
</ul>
</li>
</ol>
");
(* 270 *) (w "- # Foo
- Bar
  ---
  baz
", w "<ul>
<li>
<h1>Foo</h1>
</li>
<li>
<h2>Bar</h2>
baz</li>
</ul>
");
(* 271 *) (w "- foo
- bar
+ baz
", w "<ul>
<li>foo</li>
<li>bar</li>
</ul>
<ul>
<li>baz</li>
</ul>
");
(* 272 *) (w "1. foo
2. bar
3) baz
", w "<ol>
<li>foo</li>
<li>bar</li>
</ol>
<ol start=""3"">
<li>baz</li>
</ol>
");
(* 273 *) (w "Foo
- bar
- baz
", w "<p>Foo</p>
<ul>
<li>bar</li>
<li>baz</li>
</ul>
");
(* 274 *) (w "The number of windows in my house is
14.  The number of doors is 6.
", w "<p>The number of windows in my house is
14.  The number of doors is 6.</p>
");
(* 275 *) (w "The number of windows in my house is
1.  The number of doors is 6.
", w "<p>The number of windows in my house is</p>
<ol>
<li>The number of doors is 6.</li>
</ol>
");
(* 276 *) (w "- foo

- bar


- baz
", w "<ul>
<li>
<p>foo</p>
</li>
<li>
<p>bar</p>
</li>
<li>
<p>baz</p>
</li>
</ul>
");
(* 277 *) (w "- foo
  - bar
    - baz


      bim
", w "<ul>
<li>foo
<ul>
<li>bar
<ul>
<li>
<p>baz</p>
<p>bim</p>
</li>
</ul>
</li>
</ul>
</li>
</ul>
");
(* 278 *) (w "- foo
- bar

<!-- -->

- baz
- bim
", w "<ul>
<li>foo</li>
<li>bar</li>
</ul>
<!-- -->
<ul>
<li>baz</li>
<li>bim</li>
</ul>
");
(* 279 *) (w "-   foo

    notcode

-   foo

<!-- -->

    code
", w "<ul>
<li>
<p>foo</p>
<p>notcode</p>
</li>
<li>
<p>foo</p>
</li>
</ul>
<!-- -->
<pre><code>code
</code></pre>
");
(* 280 *) (w "- a
 - b
  - c
   - d
  - e
 - f
- g
", w "<ul>
<li>a</li>
<li>b</li>
<li>c</li>
<li>d</li>
<li>e</li>
<li>f</li>
<li>g</li>
</ul>
");
(* 281 *) (w "1. a

  2. b

   3. c
", w "<ol>
<li>
<p>a</p>
</li>
<li>
<p>b</p>
</li>
<li>
<p>c</p>
</li>
</ol>
");
(* 282 *) (w "- a
 - b
  - c
   - d
    - e
", w "<ul>
<li>a</li>
<li>b</li>
<li>c</li>
<li>d
- e</li>
</ul>
");
(* 283 *) (w "1. a

  2. b

    3. c
", w "<ol>
<li>
<p>a</p>
</li>
<li>
<p>b</p>
</li>
</ol>
<pre><code>3. c
</code></pre>
");
(* 284 *) (w "- a
- b

- c
", w "<ul>
<li>
<p>a</p>
</li>
<li>
<p>b</p>
</li>
<li>
<p>c</p>
</li>
</ul>
");
(* 285 *) (w "* a
*

* c
", w "<ul>
<li>
<p>a</p>
</li>
<li></li>
<li>
<p>c</p>
</li>
</ul>
");
(* 286 *) (w "- a
- b

  c
- d
", w "<ul>
<li>
<p>a</p>
</li>
<li>
<p>b</p>
<p>c</p>
</li>
<li>
<p>d</p>
</li>
</ul>
");
(* 287 *) (w "- a
- b

  [ref]: /url
- d
", w "<ul>
<li>
<p>a</p>
</li>
<li>
<p>b</p>
</li>
<li>
<p>d</p>
</li>
</ul>
");
(* 288 *) (w "- a
- ```
  b


  ```
- c
", w "<ul>
<li>a</li>
<li>
<pre><code>b


</code></pre>
</li>
<li>c</li>
</ul>
");
(* 289 *) (w "- a
  - b

    c
- d
", w "<ul>
<li>a
<ul>
<li>
<p>b</p>
<p>c</p>
</li>
</ul>
</li>
<li>d</li>
</ul>
");
(* 290 *) (w "* a
  > b
  >
* c
", w "<ul>
<li>a
<blockquote>
<p>b</p>
</blockquote>
</li>
<li>c</li>
</ul>
");
(* 291 *) (w "- a
  > b
  ```
  c
  ```
- d
", w "<ul>
<li>a
<blockquote>
<p>b</p>
</blockquote>
<pre><code>c
</code></pre>
</li>
<li>d</li>
</ul>
");
(* 292 *) (w "- a
", w "<ul>
<li>a</li>
</ul>
");
(* 293 *) (w "- a
  - b
", w "<ul>
<li>a
<ul>
<li>b</li>
</ul>
</li>
</ul>
");
(* 294 *) (w "1. ```
   foo
   ```

   bar
", w "<ol>
<li>
<pre><code>foo
</code></pre>
<p>bar</p>
</li>
</ol>
");
(* 295 *) (w "* foo
  * bar

  baz
", w "<ul>
<li>
<p>foo</p>
<ul>
<li>bar</li>
</ul>
<p>baz</p>
</li>
</ul>
");
(* 296 *) (w "- a
  - b
  - c

- d
  - e
  - f
", w "<ul>
<li>
<p>a</p>
<ul>
<li>b</li>
<li>c</li>
</ul>
</li>
<li>
<p>d</p>
<ul>
<li>e</li>
<li>f</li>
</ul>
</li>
</ul>
");
(* 297 *) (w "`hi`lo`
", w "<p><code>hi</code>lo`</p>
");
(* 298 *) (w "\!\""\#\$\%\&\'\(\)\*\+\,\-\.\/\:\;\<\=\>\?\@\[\\\]\^\_\`\{\|\}\~
", w "<p>!&quot;#$%&amp;'()*+,-./:;&lt;=&gt;?@[\]^_`{|}~</p>
");
(* 299 *) (w "\	\A\a\ \3\φ\«
", w "<p>\	\A\a\ \3\φ\«</p>
");
(* 300 *) (w "\*not emphasized*
\<br/> not a tag
\[not a link](/foo)
\`not code`
1\. not a list
\* not a list
\# not a heading
\[foo]: /url ""not a reference""
\&ouml; not a character entity
", w "<p>*not emphasized*
&lt;br/&gt; not a tag
[not a link](/foo)
`not code`
1. not a list
* not a list
# not a heading
[foo]: /url &quot;not a reference&quot;
&amp;ouml; not a character entity</p>
")
].
Example spec_251_ok : map html_ok spec_251 = repeat true 50.
Proof. vm_compute. reflexivity. Qed.

Definition spec_301 : list (str * str) := [
(* 301 *) (w "\\*emphasis*
", w "<p>\<em>emphasis</em></p>
");
(* 302 *) (w "foo\
bar
", w "<p>foo<br />
bar</p>
");
(* 303 *) (w "`` \[\` ``
", w "<p><code>\[\`</code></p>
");
(* 304 *) (w "    \[\]
", w "<pre><code>\[\]
</code></pre>
");
(* 305 *) (w "~~~
\[\]
~~~
", w "<pre><code>\[\]
</code></pre>
");
(* 306 *) (w "<http://example.com?find=\*>
", w "<p><a href=""http://example.com?find=%5C*"">http://example.com?find=\*</a></p>
");
(* 307 *) (w "<a href=""/bar\/)"">
", w "<a href=""/bar\/)"">
");
(* 308 *) (w "[foo](/bar\* ""ti\*tle"")
", w "<p><a href=""/bar*"" title=""ti*tle"">foo</a></p>
");
(* 309 *) (w "[foo]

[foo]: /bar\* ""ti\*tle""
", w "<p><a href=""/bar*"" title=""ti*tle"">foo</a></p>
");
(* 310 *) (w "``` foo\+bar
foo
```
", w "<pre><code class=""language-foo+bar"">foo
</code></pre>
");
(* 311 *) (w "&nbsp; &amp; &copy; &AElig; &Dcaron;
&frac34; &HilbertSpace; &DifferentialD;
&ClockwiseContourIntegral; &ngE;
", w "<p>  &amp; © Æ Ď
¾ ℋ ⅆ
∲ ≧̸</p>
");
(* 312 *) (w "&#35; &#1234; &#992; &#0;
", w "<p># Ӓ Ϡ �</p>
");
(* 313 *) (w "&#X22; &#XD06; &#xcab;
", w "<p>&quot; ആ ಫ</p>
");
(* 314 *) (w "&nbsp &x; &#; &#x;
&#987654321;
&#abcdef0;
&ThisIsNotDefined; &hi?;
", w "<p>&amp;nbsp &amp;x; &amp;#; &amp;#x;
&amp;#987654321;
&amp;#abcdef0;
&amp;ThisIsNotDefined; &amp;hi?;</p>
");
(* 315 *) (w "&copy
", w "<p>&amp;copy</p>
");
(* 316 *) (w "&MadeUpEntity;
", w "<p>&amp;MadeUpEntity;</p>
");
(* 317 *) (w "<a href=""&ouml;&ouml;.html"">
", w "<a href=""&ouml;&ouml;.html"">
");
(* 318 *) (w "[foo](/f&ouml;&ouml; ""f&ouml;&ouml;"")
", w "<p><a href=""/f%C3%B6%C3%B6"" title=""föö"">foo</a></p>
");
(* 319 *) (w "[foo]

[foo]: /f&ouml;&ouml; ""f&ouml;&ouml;""
", w "<p><a href=""/f%C3%B6%C3%B6"" title=""föö"">foo</a></p>
");
(* 320 *) (w "``` f&ouml;&ouml;
foo
```
", w "<pre><code class=""language-föö"">foo
</code></pre>
");
(* 321 *) (w "`f&ouml;&ouml;`
", w "<p><code>f&amp;ouml;&amp;ouml;</code></p>
");
(* 322 *) (w "    f&ouml;f&ouml;
", w "<pre><code>f&amp;ouml;f&amp;ouml;
</code></pre>
");
(* 323 *) (w "&#42;foo&#42;
*foo*
", w "<p>*foo*
<em>foo</em></p>
");
(* 324 *) (w "&#42; foo

* foo
", w "<p>* foo</p>
<ul>
<li>foo</li>
</ul>
");
(* 325 *) (w "foo&#10;&#10;bar
", w "<p>foo

bar</p>
");
(* 326 *) (w "&#9;foo
", w "<p>	foo</p>
");
(* 327 *) (w "[a](url &quot;tit&quot;)
", w "<p>[a](url &quot;tit&quot;)</p>
");
(* 328 *) (w "`foo`
", w "<p><code>foo</code></p>
");
(* 329 *) (w "`` foo ` bar ``
", w "<p><code>foo ` bar</code></p>
");
(* 330 *) (w "` `` `
", w "<p><code>``</code></p>
");
(* 331 *) (w "`  ``  `
", w "<p><code> `` </code></p>
");
(* 332 *) (w "` a`
", w "<p><code> a</code></p>
");
(* 333 *) (w "` b `
", w "<p><code> b </code></p>
");
(* 334 *) (w "` `
`  `
", w "<p><code> </code>
<code>  </code></p>
");
(* 335 *) (w "``
foo
bar  
baz
``
", w "<p><code>foo bar   baz</code></p>
");
(* 336 *) (w "``
foo 
``
", w "<p><code>foo </code></p>
");
(* 337 *) (w "`foo   bar 
baz`
", w "<p><code>foo   bar  baz</code></p>
");
(* 338 *) (w "`foo\`bar`
", w "<p><code>foo\</code>bar`</p>
");
(* 339 *) (w "``foo`bar``
", w "<p><code>foo`bar</code></p>
");
(* 340 *) (w "` foo `` bar `
", w "<p><code>foo `` bar</code></p>
");
(* 341 *) (w "*foo`*`
", w "<p>*foo<code>*</code></p>
");
(* 342 *) (w "[not a `link](/foo`)
", w "<p>[not a <code>link](/foo</code>)</p>
");
(* 343 *) (w "`<a href=""`"">`
", w "<p><code>&lt;a href=&quot;</code>&quot;&gt;`</p>
");
(* 344 *) (w "<a href=""`"">`
", w "<p><a href=""`"">`</p>
");
(* 345 *) (w "`<http://foo.bar.`baz>`
", w "<p><code>&lt;http://foo.bar.</code>baz&gt;`</p>
");
(* 346 *) (w "<http://foo.bar.`baz>`
", w "<p><a href=""http://foo.bar.%60baz"">http://foo.bar.`baz</a>`</p>
");
(* 347 *) (w "```foo``
", w "<p>```foo``</p>
");
(* 348 *) (w "`foo
", w "<p>`foo</p>
");
(* 349 *) (w "`foo``bar``
", w "<p>`foo<code>bar</code></p>
");
(* 350 *) (w "*foo bar*
", w "<p><em>foo bar</em></p>
")
].
Example spec_301_ok : map html_ok spec_301 = repeat true 50.
Proof. vm_compute. reflexivity. Qed.

Definition spec_351 : list (str * str) := [
(* 351 *) (w "a * foo bar*
", w "<p>a * foo bar*</p>
");
(* 352 *) (w "a*""foo""*
", w "<p>a*&quot;foo&quot;*</p>
");
(* 353 *) (w "* a *
", w "<p>* a *</p>
");
(* 354 *) (w "foo*bar*
", w "<p>foo<em>bar</em></p>
");
(* 355 *) (w "5*6*78
", w "<p>5<em>6</em>78</p>
");
(* 356 *) (w "_foo bar_
", w "<p><em>foo bar</em></p>
");
(* 357 *) (w "_ foo bar_
", w "<p>_ foo bar_</p>
");
(* 358 *) (w "a_""foo""_
", w "<p>a_&quot;foo&quot;_</p>
");
(* 359 *) (w "foo_bar_
", w "<p>foo_bar_</p>
");
(* 360 *) (w "5_6_78
", w "<p>5_6_78</p>
");
(* 361 *) (w "пристаням_стремятся_
", w "<p>пристаням_стремятся_</p>
");
(* 362 *) (w "aa_""bb""_cc
", w "<p>aa_&quot;bb&quot;_cc</p>
");
(* 363 *) (w "foo-_(bar)_
", w "<p>foo-<em>(bar)</em></p>
");
(* 364 *) (w "_foo*
", w "<p>_foo*</p>
");
(* 365 *) (w "*foo bar *
", w "<p>*foo bar *</p>
");
(* 366 *) (w "*foo bar
*
", w "<p>*foo bar
*</p>
");
(* 367 *) (w "*(*foo)
", w "<p>*(*foo)</p>
");
(* 368 *) (w "*(*foo*)*
", w "<p><em>(<em>foo</em>)</em></p>
");
(* 369 *) (w "*foo*bar
", w "<p><em>foo</em>bar</p>
");
(* 370 *) (w "_foo bar _
", w "<p>_foo bar _</p>
");
(* 371 *) (w "_(_foo)
", w "<p>_(_foo)</p>
");
(* 372 *) (w "_(_foo_)_
", w "<p><em>(<em>foo</em>)</em></p>
");
(* 373 *) (w "_foo_bar
", w "<p>_foo_bar</p>
");
(* 374 *) (w "_пристаням_стремятся
", w "<p>_пристаням_стремятся</p>
");
(* 375 *) (w "_foo_bar_baz_
", w "<p><em>foo_bar_baz</em></p>
");
(* 376 *) (w "_(bar)_.
", w "<p><em>(bar)</em>.</p>
");
(* 377 *) (w "**foo bar**
", w "<p><strong>foo bar</strong></p>
");
(* 378 *) (w "** foo bar**
", w "<p>** foo bar**</p>
");
(* 379 *) (w "a**""foo""**
", w "<p>a**&quot;foo&quot;**</p>
");
(* 380 *) (w "foo**bar**
", w "<p>foo<strong>bar</strong></p>
");
(* 381 *) (w "__foo bar__
", w "<p><strong>foo bar</strong></p>
");
(* 382 *) (w "__ foo bar__
", w "<p>__ foo bar__</p>
");
(* 383 *) (w "__
foo bar__
", w "<p>__
foo bar__</p>
");
(* 384 *) (w "a__""foo""__
", w "<p>a__&quot;foo&quot;__</p>
");
(* 385 *) (w "foo__bar__
", w "<p>foo__bar__</p>
");
(* 386 *) (w "5__6__78
", w "<p>5__6__78</p>
");
(* 387 *) (w "пристаням__стремятся__
", w "<p>пристаням__стремятся__</p>
");
(* 388 *) (w "__foo, __bar__, baz__
", w "<p><strong>foo, <strong>bar</strong>, baz</strong></p>
");
(* 389 *) (w "foo-__(bar)__
", w "<p>foo-<strong>(bar)</strong></p>
");
(* 390 *) (w "**foo bar **
", w "<p>**foo bar **</p>
");
(* 391 *) (w "**(**foo)
", w "<p>**(**foo)</p>
");
(* 392 *) (w "*(**foo**)*
", w "<p><em>(<strong>foo</strong>)</em></p>
");
(* 393 *) (w "**Gomphocarpus (*Gomphocarpus physocarpus*, syn.
*Asclepias physocarpa*)**
", w "<p><strong>Gomphocarpus (<em>Gomphocarpus physocarpus</em>, syn.
<em>Asclepias physocarpa</em>)</strong></p>
");
(* 394 *) (w "**foo ""*bar*"" foo**
", w "<p><strong>foo &quot;<em>bar</em>&quot; foo</strong></p>
");
(* 395 *) (w "**foo**bar
", w "<p><strong>foo</strong>bar</p>
");
(* 396 *) (w "__foo bar __
", w "<p>__foo bar __</p>
");
(* 397 *) (w "__(__foo)
", w "<p>__(__foo)</p>
");
(* 398 *) (w "_(__foo__)_
", w "<p><em>(<strong>foo</strong>)</em></p>
");
(* 399 *) (w "__foo__bar
", w "<p>__foo__bar</p>
");
(* 400 *) (w "__пристаням__стремятся
", w "<p>__пристаням__стремятся</p>
")
].
Example spec_351_ok : map html_ok spec_351 = repeat true 50.
Proof. vm_compute. reflexivity. Qed.

Definition spec_401 : list (str * str) := [
(* 401 *) (w "__foo__bar__baz__
", w "<p><strong>foo__bar__baz</strong></p>
");
(* 402 *) (w "__(bar)__.
", w "<p><strong>(bar)</strong>.</p>
");
(* 403 *) (w "*foo [bar](/url)*
", w "<p><em>foo <a href=""/url"">bar</a></em></p>
");
(* 404 *) (w "*foo
bar*
", w "<p><em>foo
bar</em></p>
");
(* 405 *) (w "_foo __bar__ baz_
", w "<p><em>foo <strong>bar</strong> baz</em></p>
");
(* 406 *) (w "_foo _bar_ baz_
", w "<p><em>foo <em>bar</em> baz</em></p>
");
(* 407 *) (w "__foo_ bar_
", w "<p><em><em>foo</em> bar</em></p>
");
(* 408 *) (w "*foo *bar**
", w "<p><em>foo <em>bar</em></em></p>
");
(* 409 *) (w "*foo **bar** baz*
", w "<p><em>foo <strong>bar</strong> baz</em></p>
");
(* 410 *) (w "*foo**bar**baz*
", w "<p><em>foo<strong>bar</strong>baz</em></p>
");
(* 411 *) (w "*foo**bar*
", w "<p><em>foo**bar</em></p>
");
(* 412 *) (w "***foo** bar*
", w "<p><em><strong>foo</strong> bar</em></p>
");
(* 413 *) (w "*foo **bar***
", w "<p><em>foo <strong>bar</strong></em></p>
");
(* 414 *) (w "*foo**bar***
", w "<p><em>foo<strong>bar</strong></em></p>
");
(* 415 *) (w "foo***bar***baz
", w "<p>foo<em><strong>bar</strong></em>baz</p>
");
(* 416 *) (w "foo******bar*********baz
", w "<p>foo<strong><strong><strong>bar</strong></strong></strong>***baz</p>
");
(* 417 *) (w "*foo **bar *baz* bim** bop*
", w "<p><em>foo <strong>bar <em>baz</em> bim</strong> bop</em></p>
");
(* 418 *) (w "*foo [*bar*](/url)*
", w "<p><em>foo <a href=""/url""><em>bar</em></a></em></p>
");
(* 419 *) (w "** is not an empty emphasis
", w "<p>** is not an empty emphasis</p>
");
(* 420 *) (w "**** is not an empty strong emphasis
", w "<p>**** is not an empty strong emphasis</p>
");
(* 421 *) (w "**foo [bar](/url)**
", w "<p><strong>foo <a href=""/url"">bar</a></strong></p>
");
(* 422 *) (w "**foo
bar**
", w "<p><strong>foo
bar</strong></p>
");
(* 423 *) (w "__foo _bar_ baz__
", w "<p><strong>foo <em>bar</em> baz</strong></p>
");
(* 424 *) (w "__foo __bar__ baz__
", w "<p><strong>foo <strong>bar</strong> baz</strong></p>
");
(* 425 *) (w "____foo__ bar__
", w "<p><strong><strong>foo</strong> bar</strong></p>
");
(* 426 *) (w "**foo **bar****
", w "<p><strong>foo <strong>bar</strong></strong></p>
");
(* 427 *) (w "**foo *bar* baz**
", w "<p><strong>foo <em>bar</em> baz</strong></p>
");
(* 428 *) (w "**foo*bar*baz**
", w "<p><strong>foo<em>bar</em>baz</strong></p>
");
(* 429 *) (w "***foo* bar**
", w "<p><strong><em>foo</em> bar</strong></p>
");
(* 430 *) (w "**foo *bar***
", w "<p><strong>foo <em>bar</em></strong></p>
");
(* 431 *) (w "**foo *bar **baz**
bim* bop**
", w "<p><strong>foo <em>bar <strong>baz</strong>
bim</em> bop</strong></p>
");
(* 432 *) (w "**foo [*bar*](/url)**
", w "<p><strong>foo <a href=""/url""><em>bar</em></a></strong></p>
");
(* 433 *) (w "__ is not an empty emphasis
", w "<p>__ is not an empty emphasis</p>
");
(* 434 *) (w "____ is not an empty strong emphasis
", w "<p>____ is not an empty strong emphasis</p>
");
(* 435 *) (w "foo ***
", w "<p>foo ***</p>
");
(* 436 *) (w "foo *\**
", w "<p>foo <em>*</em></p>
");
(* 437 *) (w "foo *_*
", w "<p>foo <em>_</em></p>
");
(* 438 *) (w "foo *****
", w "<p>foo *****</p>
");
(* 439 *) (w "foo **\***
", w "<p>foo <strong>*</strong></p>
");
(* 440 *) (w "foo **_**
", w "<p>foo <strong>_</strong></p>
");
(* 441 *) (w "**foo*
", w "<p>*<em>foo</em></p>
");
(* 442 *) (w "*foo**
", w "<p><em>foo</em>*</p>
");
(* 443 *) (w "***foo**
", w "<p>*<strong>foo</strong></p>
");
(* 444 *) (w "****foo*
", w "<p>***<em>foo</em></p>
");
(* 445 *) (w "**foo***
", w "<p><strong>foo</strong>*</p>
");
(* 446 *) (w "*foo****
", w "<p><em>foo</em>***</p>
");
(* 447 *) (w "foo ___
", w "<p>foo ___</p>
");
(* 448 *) (w "foo _\__
", w "<p>foo <em>_</em></p>
");
(* 449 *) (w "foo _*_
", w "<p>foo <em>*</em></p>
");
(* 450 *) (w "foo _____
", w "<p>foo _____</p>
")
].
Example spec_401_ok : map html_ok spec_401 = repeat true 50.
Proof. vm_compute. reflexivity. Qed.

Definition spec_451 : list (str * str) := [
(* 451 *) (w "foo __\___
", w "<p>foo <strong>_</strong></p>
");
(* 452 *) (w "foo __*__
", w "<p>foo <strong>*</strong></p>
");
(* 453 *) (w "__foo_
", w "<p>_<em>foo</em></p>
");
(* 454 *) (w "_foo__
", w "<p><em>foo</em>_</p>
");
(* 455 *) (w "___foo__
", w "<p>_<strong>foo</strong></p>
");
(* 456 *) (w "____foo_
", w "<p>___<em>foo</em></p>
");
(* 457 *) (w "__foo___
", w "<p><strong>foo</strong>_</p>
");
(* 458 *) (w "_foo____
", w "<p><em>foo</em>___</p>
");
(* 459 *) (w "**foo**
", w "<p><strong>foo</strong></p>
");
(* 460 *) (w "*_foo_*
", w "<p><em><em>foo</em></em></p>
");
(* 461 *) (w "__foo__
", w "<p><strong>foo</strong></p>
");
(* 462 *) (w "_*foo*_
", w "<p><em><em>foo</em></em></p>
");
(* 463 *) (w "****foo****
", w "<p><strong><strong>foo</strong></strong></p>
");
(* 464 *) (w "____foo____
", w "<p><strong><strong>foo</strong></strong></p>
");
(* 465 *) (w "******foo******
", w "<p><strong><strong><strong>foo</strong></strong></strong></p>
");
(* 466 *) (w "***foo***
", w "<p><em><strong>foo</strong></em></p>
");
(* 467 *) (w "_____foo_____
", w "<p><em><strong><strong>foo</strong></strong></em></p>
");
(* 468 *) (w "*foo _bar* baz_
", w "<p><em>foo _bar</em> baz_</p>
");
(* 469 *) (w "*foo __bar *baz bim__ bam*
", w "<p><em>foo <strong>bar *baz bim</strong> bam</em></p>
");
(* 470 *) (w "**foo **bar baz**
", w "<p>**foo <strong>bar baz</strong></p>
");
(* 471 *) (w "*foo *bar baz*
", w "<p>*foo <em>bar baz</em></p>
");
(* 472 *) (w "*[bar*](/url)
", w "<p>*<a href=""/url"">bar*</a></p>
");
(* 473 *) (w "_foo [bar_](/url)
", w "<p>_foo <a href=""/url"">bar_</a></p>
");
(* 474 *) (w "*<img src=""foo"" title=""*""/>
", w "<p>*<img src=""foo"" title=""*""/></p>
");
(* 475 *) (w "**<a href=""**"">
", w "<p>**<a href=""**""></p>
");
(* 476 *) (w "__<a href=""__"">
", w "<p>__<a href=""__""></p>
");
(* 477 *) (w "*a `*`*
", w "<p><em>a <code>*</code></em></p>
");
(* 478 *) (w "_a `_`_
", w "<p><em>a <code>_</code></em></p>
");
(* 479 *) (w "**a<http://foo.bar/?q=**>
", w "<p>**a<a href=""http://foo.bar/?q=**"">http://foo.bar/?q=**</a></p>
");
(* 480 *) (w "__a<http://foo.bar/?q=__>
", w "<p>__a<a href=""http://foo.bar/?q=__"">http://foo.bar/?q=__</a></p>
");
(* 481 *) (w "[link](/uri ""title"")
", w "<p><a href=""/uri"" title=""title"">link</a></p>
");
(* 482 *) (w "[link](/uri)
", w "<p><a href=""/uri"">link</a></p>
");
(* 483 *) (w "[link]()
", w "<p><a href="""">link</a></p>
");
(* 484 *) (w "[link](<>)
", w "<p><a href="""">link</a></p>
");
(* 485 *) (w "[link](/my uri)
", w "<p>[link](/my uri)</p>
");
(* 486 *) (w "[link](</my uri>)
", w "<p><a href=""/my%20uri"">link</a></p>
");
(* 487 *) (w "[link](foo
bar)
", w "<p>[link](foo
bar)</p>
");
(* 488 *) (w "[link](<foo
bar>)
", w "<p>[link](<foo
bar>)</p>
");
(* 489 *) (w "[a](<b)c>)
", w "<p><a href=""b)c"">a</a></p>
");
(* 490 *) (w "[link](<foo\>)
", w "<p>[link](&lt;foo&gt;)</p>
");
(* 491 *) (w "[a](<b)c
[a](<b)c>
[a](<b>c)
", w "<p>[a](&lt;b)c
[a](&lt;b)c&gt;
[a](<b>c)</p>
");
(* 492 *) (w "[link](\(foo\))
", w "<p><a href=""(foo)"">link</a></p>
");
(* 493 *) (w "[link](foo(and(bar)))
", w "<p><a href=""foo(and(bar))"">link</a></p>
");
(* 494 *) (w "[link](foo\(and\(bar\))
", w "<p><a href=""foo(and(bar)"">link</a></p>
");
(* 495 *) (w "[link](<foo(and(bar)>)
", w "<p><a href=""foo(and(bar)"">link</a></p>
");
(* 496 *) (w "[link](foo\)\:)
", w "<p><a href=""foo):"">link</a></p>
");
(* 497 *) (w "[link](#fragment)

[link](http://example.com#fragment)

[link](http://example.com?foo=3#frag)
", w "<p><a href=""#fragment"">link</a></p>
<p><a href=""http://example.com#fragment"">link</a></p>
<p><a href=""http://example.com?foo=3#frag"">link</a></p>
");
(* 498 *) (w "[link](foo\bar)
", w "<p><a href=""foo%5Cbar"">link</a></p>
");
(* 499 *) (w "[link](foo%20b&auml;)
", w "<p><a href=""foo%20b%C3%A4"">link</a></p>
");
(* 500 *) (w "[link](""title"")
", w "<p><a href=""%22title%22"">link</a></p>
")
].
Example spec_451_ok : map html_ok spec_451 = repeat true 50.
Proof. vm_compute. reflexivity. Qed.

Definition spec_501 : list (str * str) := [
(* 501 *) (w "[link](/url ""title"")
[link](/url 'title')
[link](/url (title))
", w "<p><a href=""/url"" title=""title"">link</a>
<a href=""/url"" title=""title"">link</a>
<a href=""/url"" title=""title"">link</a></p>
");
(* 502 *) (w "[link](/url ""title \""&quot;"")
", w "<p><a href=""/url"" title=""title &quot;&quot;"">link</a></p>
");
(* 503 *) (w "[link](/url ""title"")
", w "<p><a href=""/url%C2%A0%22title%22"">link</a></p>
");
(* 504 *) (w "[link](/url ""title ""and"" title"")
", w "<p>[link](/url &quot;title &quot;and&quot; title&quot;)</p>
");
(* 505 *) (w "[link](/url 'title ""and"" title')
", w "<p><a href=""/url"" title=""title &quot;and&quot; title"">link</a></p>
");
(* 506 *) (w "[link](   /uri
  ""title""  )
", w "<p><a href=""/uri"" title=""title"">link</a></p>
");
(* 507 *) (w "[link] (/uri)
", w "<p>[link] (/uri)</p>
");
(* 508 *) (w "[link [foo [bar]]](/uri)
", w "<p><a href=""/uri"">link [foo [bar]]</a></p>
");
(* 509 *) (w "[link] bar](/uri)
", w "<p>[link] bar](/uri)</p>
");
(* 510 *) (w "[link [bar](/uri)
", w "<p>[link <a href=""/uri"">bar</a></p>
");
(* 511 *) (w "[link \[bar](/uri)
", w "<p><a href=""/uri"">link [bar</a></p>
");
(* 512 *) (w "[link *foo **bar** `#`*](/uri)
", w "<p><a href=""/uri"">link <em>foo <strong>bar</strong> <code>#</code></em></a></p>
");
(* 513 *) (w "[![moon](moon.jpg)](/uri)
", w "<p><a href=""/uri""><img src=""moon.jpg"" alt=""moon"" /></a></p>
");
(* 514 *) (w "[foo [bar](/uri)](/uri)
", w "<p>[foo <a href=""/uri"">bar</a>](/uri)</p>
");
(* 515 *) (w "[foo *[bar [baz](/uri)](/uri)*](/uri)
", w "<p>[foo <em>[bar <a href=""/uri"">baz</a>](/uri)</em>](/uri)</p>
");
(* 516 *) (w "![[[foo](uri1)](uri2)](uri3)
", w "<p><img src=""uri3"" alt=""[foo](uri2)"" /></p>
");
(* 517 *) (w "*[foo*](/uri)
", w "<p>*<a href=""/uri"">foo*</a></p>
");
(* 518 *) (w "[foo *bar](baz*)
", w "<p><a href=""baz*"">foo *bar</a></p>
");
(* 519 *) (w "*foo [bar* baz]
", w "<p><em>foo [bar</em> baz]</p>
");
(* 520 *) (w "[foo <bar attr=""](baz)"">
", w "<p>[foo <bar attr=""](baz)""></p>
");
(* 521 *) (w "[foo`](/uri)`
", w "<p>[foo<code>](/uri)</code></p>
");
(* 522 *) (w "[foo<http://example.com/?search=](uri)>
", w "<p>[foo<a href=""http://example.com/?search=%5D(uri)"">http://example.com/?search=](uri)</a></p>
");
(* 523 *) (w "[foo][bar]

[bar]: /url ""title""
", w "<p><a href=""/url"" title=""title"">foo</a></p>
");
(* 524 *) (w "[link [foo [bar]]][ref]

[ref]: /uri
", w "<p><a href=""/uri"">link [foo [bar]]</a></p>
");
(* 525 *) (w "[link \[bar][ref]

[ref]: /uri
", w "<p><a href=""/uri"">link [bar</a></p>
");
(* 526 *) (w "[link *foo **bar** `#`*][ref]

[ref]: /uri
", w "<p><a href=""/uri"">link <em>foo <strong>bar</strong> <code>#</code></em></a></p>
");
(* 527 *) (w "[![moon](moon.jpg)][ref]

[ref]: /uri
", w "<p><a href=""/uri""><img src=""moon.jpg"" alt=""moon"" /></a></p>
");
(* 528 *) (w "[foo [bar](/uri)][ref]

[ref]: /uri
", w "<p>[foo <a href=""/uri"">bar</a>]<a href=""/uri"">ref</a></p>
");
(* 529 *) (w "[foo *bar [baz][ref]*][ref]

[ref]: /uri
", w "<p>[foo <em>bar <a href=""/uri"">baz</a></em>]<a href=""/uri"">ref</a></p>
");
(* 530 *) (w "*[foo*][ref]

[ref]: /uri
", w "<p>*<a href=""/uri"">foo*</a></p>
");
(* 531 *) (w "[foo *bar][ref]

[ref]: /uri
", w "<p><a href=""/uri"">foo *bar</a></p>
");
(* 532 *) (w "[foo <bar attr=""][ref]"">

[ref]: /uri
", w "<p>[foo <bar attr=""][ref]""></p>
");
(* 533 *) (w "[foo`][ref]`

[ref]: /uri
", w "<p>[foo<code>][ref]</code></p>
");
(* 534 *) (w "[foo<http://example.com/?search=][ref]>

[ref]: /uri
", w "<p>[foo<a href=""http://example.com/?search=%5D%5Bref%5D"">http://example.com/?search=][ref]</a></p>
");
(* 535 *) (w "[foo][BaR]

[bar]: /url ""title""
", w "<p><a href=""/url"" title=""title"">foo</a></p>
");
(* 536 *) (w "[Толпой][Толпой] is a Russian word.

[ТОЛПОЙ]: /url
", w "<p><a href=""/url"">Толпой</a> is a Russian word.</p>
");
(* 537 *) (w "[Foo
  bar]: /url

[Baz][Foo bar]
", w "<p><a href=""/url"">Baz</a></p>
");
(* 538 *) (w "[foo] [bar]

[bar]: /url ""title""
", w "<p>[foo] <a href=""/url"" title=""title"">bar</a></p>
");
(* 539 *) (w "[foo]
[bar]

[bar]: /url ""title""
", w "<p>[foo]
<a href=""/url"" title=""title"">bar</a></p>
");
(* 540 *) (w "[foo]: /url1

[foo]: /url2

[bar][foo]
", w "<p><a href=""/url1"">bar</a></p>
");
(* 541 *) (w "[bar][foo\!]

[foo!]: /url
", w "<p>[bar][foo!]</p>
");
(* 542 *) (w "[foo][ref[]

[ref[]: /uri
", w "<p>[foo][ref[]</p>
<p>[ref[]: /uri</p>
");
(* 543 *) (w "[foo][ref[bar]]

[ref[bar]]: /uri
", w "<p>[foo][ref[bar]]</p>
<p>[ref[bar]]: /uri</p>
");
(* 544 *) (w "[[[foo]]]

[[[foo]]]: /url
", w "<p>[[[foo]]]</p>
<p>[[[foo]]]: /url</p>
");
(* 545 *) (w "[foo][ref\[]

[ref\[]: /uri
", w "<p><a href=""/uri"">foo</a></p>
");
(* 546 *) (w "[bar\\]: /uri

[bar\\]
", w "<p><a href=""/uri"">bar\</a></p>
");
(* 547 *) (w "[]

[]: /uri
", w "<p>[]</p>
<p>[]: /uri</p>
");
(* 548 *) (w "[
 ]

[
 ]: /uri
", w "<p>[
]</p>
<p>[
]: /uri</p>
");
(* 549 *) (w "[foo][]

[foo]: /url ""title""
", w "<p><a href=""/url"" title=""title"">foo</a></p>
");
(* 550 *) (w "[*foo* bar][]

[*foo* bar]: /url ""title""
", w "<p><a href=""/url"" title=""title""><em>foo</em> bar</a></p>
")
].
Example spec_501_ok : map html_ok spec_501 = repeat true 50.
Proof. vm_compute. reflexivity. Qed.

Definition spec_551 : list (str * str) := [
(* 551 *) (w "[Foo][]

[foo]: /url ""title""
", w "<p><a href=""/url"" title=""title"">Foo</a></p>
");
(* 552 *) (w "[foo] 
[]

[foo]: /url ""title""
", w "<p><a href=""/url"" title=""title"">foo</a>
[]</p>
");
(* 553 *) (w "[foo]

[foo]: /url ""title""
", w "<p><a href=""/url"" title=""title"">foo</a></p>
");
(* 554 *) (w "[*foo* bar]

[*foo* bar]: /url ""title""
", w "<p><a href=""/url"" title=""title""><em>foo</em> bar</a></p>
");
(* 555 *) (w "[[*foo* bar]]

[*foo* bar]: /url ""title""
", w "<p>[<a href=""/url"" title=""title""><em>foo</em> bar</a>]</p>
");
(* 556 *) (w "[[bar [foo]

[foo]: /url
", w "<p>[[bar <a href=""/url"">foo</a></p>
");
(* 557 *) (w "[Foo]

[foo]: /url ""title""
", w "<p><a href=""/url"" title=""title"">Foo</a></p>
");
(* 558 *) (w "[foo] bar

[foo]: /url
", w "<p><a href=""/url"">foo</a> bar</p>
");
(* 559 *) (w "\[foo]

[foo]: /url ""title""
", w "<p>[foo]</p>
");
(* 560 *) (w "[foo*]: /url

*[foo*]
", w "<p>*<a href=""/url"">foo*</a></p>
");
(* 561 *) (w "[foo][bar]

[foo]: /url1
[bar]: /url2
", w "<p><a href=""/url2"">foo</a></p>
");
(* 562 *) (w "[foo][]

[foo]: /url1
", w "<p><a href=""/url1"">foo</a></p>
");
(* 563 *) (w "[foo]()

[foo]: /url1
", w "<p><a href="""">foo</a></p>
");
(* 564 *) (w "[foo](not a link)

[foo]: /url1
", w "<p><a href=""/url1"">foo</a>(not a link)</p>
");
(* 565 *) (w "[foo][bar][baz]

[baz]: /url
", w "<p>[foo]<a href=""/url"">bar</a></p>
");
(* 566 *) (w "[foo][bar][baz]

[baz]: /url1
[bar]: /url2
", w "<p><a href=""/url2"">foo</a><a href=""/url1"">baz</a></p>
");
(* 567 *) (w "[foo][bar][baz]

[baz]: /url1
[foo]: /url2
", w "<p>[foo]<a href=""/url1"">bar</a></p>
");
(* 568 *) (w "![foo](/url ""title"")
", w "<p><img src=""/url"" alt=""foo"" title=""title"" /></p>
");
(* 569 *) (w "![foo *bar*]

[foo *bar*]: train.jpg ""train & tracks""
", w "<p><img src=""train.jpg"" alt=""foo bar"" title=""train &amp; tracks"" /></p>
");
(* 570 *) (w "![foo ![bar](/url)](/url2)
", w "<p><img src=""/url2"" alt=""foo bar"" /></p>
");
(* 571 *) (w "![foo [bar](/url)](/url2)
", w "<p><img src=""/url2"" alt=""foo bar"" /></p>
");
(* 572 *) (w "![foo *bar*][]

[foo *bar*]: train.jpg ""train & tracks""
", w "<p><img src=""train.jpg"" alt=""foo bar"" title=""train &amp; tracks"" /></p>
");
(* 573 *) (w "![foo *bar*][foobar]

[FOOBAR]: train.jpg ""train & tracks""
", w "<p><img src=""train.jpg"" alt=""foo bar"" title=""train &amp; tracks"" /></p>
");
(* 574 *) (w "![foo](train.jpg)
", w "<p><img src=""train.jpg"" alt=""foo"" /></p>
");
(* 575 *) (w "My ![foo bar](/path/to/train.jpg  ""title""   )
", w "<p>My <img src=""/path/to/train.jpg"" alt=""foo bar"" title=""title"" /></p>
");
(* 576 *) (w "![foo](<url>)
", w "<p><img src=""url"" alt=""foo"" /></p>
");
(* 577 *) (w "![](/url)
", w "<p><img src=""/url"" alt="""" /></p>
");
(* 578 *) (w "![foo][bar]

[bar]: /url
", w "<p><img src=""/url"" alt=""foo"" /></p>
");
(* 579 *) (w "![foo][bar]

[BAR]: /url
", w "<p><img src=""/url"" alt=""foo"" /></p>
");
(* 580 *) (w "![foo][]

[foo]: /url ""title""
", w "<p><img src=""/url"" alt=""foo"" title=""title"" /></p>
");
(* 581 *) (w "![*foo* bar][]

[*foo* bar]: /url ""title""
", w "<p><img src=""/url"" alt=""foo bar"" title=""title"" /></p>
");
(* 582 *) (w "![Foo][]

[foo]: /url ""title""
", w "<p><img src=""/url"" alt=""Foo"" title=""title"" /></p>
");
(* 583 *) (w "![foo] 
[]

[foo]: /url ""title""
", w "<p><img src=""/url"" alt=""foo"" title=""title"" />
[]</p>
");
(* 584 *) (w "![foo]

[foo]: /url ""title""
", w "<p><img src=""/url"" alt=""foo"" title=""title"" /></p>
");
(* 585 *) (w "![*foo* bar]

[*foo* bar]: /url ""title""
", w "<p><img src=""/url"" alt=""foo bar"" title=""title"" /></p>
");
(* 586 *) (w "![[foo]]

[[foo]]: /url ""title""
", w "<p>![[foo]]</p>
<p>[[foo]]: /url &quot;title&quot;</p>
");
(* 587 *) (w "![Foo]

[foo]: /url ""title""
", w "<p><img src=""/url"" alt=""Foo"" title=""title"" /></p>
");
(* 588 *) (w "!\[foo]

[foo]: /url ""title""
", w "<p>![foo]</p>
");
(* 589 *) (w "\![foo]

[foo]: /url ""title""
", w "<p>!<a href=""/url"" title=""title"">foo</a></p>
");
(* 590 *) (w "<http://foo.bar.baz>
", w "<p><a href=""http://foo.bar.baz"">http://foo.bar.baz</a></p>
");
(* 591 *) (w "<http://foo.bar.baz/test?q=hello&id=22&boolean>
", w "<p><a href=""http://foo.bar.baz/test?q=hello&amp;id=22&amp;boolean"">http://foo.bar.baz/test?q=hello&amp;id=22&amp;boolean</a></p>
");
(* 592 *) (w "<irc://foo.bar:2233/baz>
", w "<p><a href=""irc://foo.bar:2233/baz"">irc://foo.bar:2233/baz</a></p>
");
(* 593 *) (w "<MAILTO:FOO@BAR.BAZ>
", w "<p><a href=""MAILTO:FOO@BAR.BAZ"">MAILTO:FOO@BAR.BAZ</a></p>
");
(* 594 *) (w "<a+b+c:d>
", w "<p><a href=""a+b+c:d"">a+b+c:d</a></p>
");
(* 595 *) (w "<made-up-scheme://foo,bar>
", w "<p><a href=""made-up-scheme://foo,bar"">made-up-scheme://foo,bar</a></p>
");
(* 596 *) (w "<http://../>
", w "<p><a href=""http://../"">http://../</a></p>
");
(* 597 *) (w "<localhost:5001/foo>
", w "<p><a href=""localhost:5001/foo"">localhost:5001/foo</a></p>
");
(* 598 *) (w "<http://foo.bar/baz bim>
", w "<p>&lt;http://foo.bar/baz bim&gt;</p>
");
(* 599 *) (w "<http://example.com/\[\>
", w "<p><a href=""http://example.com/%5C%5B%5C"">http://example.com/\[\</a></p>
");
(* 600 *) (w "<foo@bar.example.com>
", w "<p><a href=""mailto:foo@bar.example.com"">foo@bar.example.com</a></p>
")
].
Example spec_551_ok : map html_ok spec_551 = repeat true 50.
Proof. vm_compute. reflexivity. Qed.

Definition spec_601 : list (str * str) := [
(* 601 *) (w "<foo+special@Bar.baz-bar0.com>
", w "<p><a href=""mailto:foo+special@Bar.baz-bar0.com"">foo+special@Bar.baz-bar0.com</a></p>
");
(* 602 *) (w "<foo\+@bar.example.com>
", w "<p>&lt;foo+@bar.example.com&gt;</p>
");
(* 603 *) (w "<>
", w "<p>&lt;&gt;</p>
");
(* 604 *) (w "< http://foo.bar >
", w "<p>&lt; http://foo.bar &gt;</p>
");
(* 605 *) (w "<m:abc>
", w "<p>&lt;m:abc&gt;</p>
");
(* 606 *) (w "<foo.bar.baz>
", w "<p>&lt;foo.bar.baz&gt;</p>
");
(* 607 *) (w "http://example.com
", w "<p>http://example.com</p>
");
(* 608 *) (w "foo@bar.example.com
", w "<p>foo@bar.example.com</p>
");
(* 609 *) (w "<a><bab><c2c>
", w "<p><a><bab><c2c></p>
");
(* 610 *) (w "<a/><b2/>
", w "<p><a/><b2/></p>
");
(* 611 *) (w "<a  /><b2
data=""foo"" >
", w "<p><a  /><b2
data=""foo"" ></p>
");
(* 612 *) (w "<a foo=""bar"" bam = 'baz <em>""</em>'
_boolean zoop:33=zoop:33 />
", w "<p><a foo=""bar"" bam = 'baz <em>""</em>'
_boolean zoop:33=zoop:33 /></p>
");
(* 613 *) (w "Foo <responsive-image src=""foo.jpg"" />
", w "<p>Foo <responsive-image src=""foo.jpg"" /></p>
");
(* 614 *) (w "<33> <__>
", w "<p>&lt;33&gt; &lt;__&gt;</p>
");
(* 615 *) (w "<a h*#ref=""hi"">
", w "<p>&lt;a h*#ref=&quot;hi&quot;&gt;</p>
");
(* 616 *) (w "<a href=""hi'> <a href=hi'>
", w "<p>&lt;a href=&quot;hi'&gt; &lt;a href=hi'&gt;</p>
");
(* 617 *) (w "< a><
foo><bar/ >
<foo bar=baz
bim!bop />
", w "<p>&lt; a&gt;&lt;
foo&gt;&lt;bar/ &gt;
&lt;foo bar=baz
bim!bop /&gt;</p>
");
(* 618 *) (w "<a href='bar'title=title>
", w "<p>&lt;a href='bar'title=title&gt;</p>
");
(* 619 *) (w "</a></foo >
", w "<p></a></foo ></p>
");
(* 620 *) (w "</a href=""foo"">
", w "<p>&lt;/a href=&quot;foo&quot;&gt;</p>
");
(* 621 *) (w "foo <!-- this is a
comment - with hyphen -->
", w "<p>foo <!-- this is a
comment - with hyphen --></p>
");
(* 622 *) (w "foo <!-- not a comment -- two hyphens -->
", w "<p>foo &lt;!-- not a comment -- two hyphens --&gt;</p>
");
(* 623 *) (w "foo <!--> foo -->

foo <!-- foo--->
", w "<p>foo &lt;!--&gt; foo --&gt;</p>
<p>foo &lt;!-- foo---&gt;</p>
");
(* 624 *) (w "foo <?php echo $a; ?>
", w "<p>foo <?php echo $a; ?></p>
");
(* 625 *) (w "foo <!ELEMENT br EMPTY>
", w "<p>foo <!ELEMENT br EMPTY></p>
");
(* 626 *) (w "foo <![CDATA[>&<]]>
", w "<p>foo <![CDATA[>&<]]></p>
");
(* 627 *) (w "foo <a href=""&ouml;"">
", w "<p>foo <a href=""&ouml;""></p>
");
(* 628 *) (w "foo <a href=""\*"">
", w "<p>foo <a href=""\*""></p>
");
(* 629 *) (w "<a href=""\"""">
", w "<p>&lt;a href=&quot;&quot;&quot;&gt;</p>
");
(* 630 *) (w "foo  
baz
", w "<p>foo<br />
baz</p>
");
(* 631 *) (w "foo\
baz
", w "<p>foo<br />
baz</p>
");
(* 632 *) (w "foo       
baz
", w "<p>foo<br />
baz</p>
");
(* 633 *) (w "foo  
     bar
", w "<p>foo<br />
bar</p>
");
(* 634 *) (w "foo\
     bar
", w "<p>foo<br />
bar</p>
");
(* 635 *) (w "*foo  
bar*
", w "<p><em>foo<br />
bar</em></p>
");
(* 636 *) (w "*foo\
bar*
", w "<p><em>foo<br />
bar</em></p>
");
(* 637 *) (w "`code 
span`
", w "<p><code>code  span</code></p>
");
(* 638 *) (w "`code\
span`
", w "<p><code>code\ span</code></p>
");
(* 639 *) (w "<a href=""foo  
bar"">
", w "<p><a href=""foo  
bar""></p>
");
(* 640 *) (w "<a href=""foo\
bar"">
", w "<p><a href=""foo\
bar""></p>
");
(* 641 *) (w "foo\
", w "<p>foo\</p>
");
(* 642 *) (w "foo  
", w "<p>foo</p>
");
(* 643 *) (w "### foo\
", w "<h3>foo\</h3>
");
(* 644 *) (w "### foo  
", w "<h3>foo</h3>
");
(* 645 *) (w "foo
baz
", w "<p>foo
baz</p>
");
(* 646 *) (w "foo 
 baz
", w "<p>foo
baz</p>
");
(* 647 *) (w "hello $.;'there
", w "<p>hello $.;'there</p>
");
(* 648 *) (w "Foo χρῆν
", w "<p>Foo χρῆν</p>
");
(* 649 *) (w "Multiple     spaces
", w "<p>Multiple     spaces</p>
")
].
Example spec_601_ok : map html_ok spec_601 = repeat true 49.
Proof. vm_compute. reflexivity. Qed.

Definition rst_examples : list (str * str) := [
(w "Hello **Strong**", w "
Hello **Strong**
");
(w "Hello *Emphasis*", w "
Hello *Emphasis*
");
(w "Hello paragraph", w "
Hello paragraph
");
(w "[Link](http://example.com)", w "
`Link <http://example.com>`_
");
(w "![Image](http://placekitten.com/100/100)", w "
.. image:: http://placekitten.com/100/100
    :alt: Image
");
(w "Test `inline code` with backticks", w "
Test ``inline code`` with backticks
");
(w "
```python
# code block
print '3 backticks or'
print 'indent 4 spaces'
```
", w "
.. code:: python

    # code block
    print '3 backticks or'
    print 'indent 4 spaces'
");
(w "
This is a list:
* List item
* List item
* List item
", w "
This is a list:

* List item
* List item
* List item
");
(w "
This is a ordered list:
1. One
2. Two
3. Three
", w "
This is a ordered list:

#. One
#. Two
#. Three
");
(w "
This is an ordered list with multi-line items:
1. First item,
with lazy indentation.
2. Second item,
   with normal indentation.
", w "
This is an ordered list with multi-line items:

#. First item,
   with lazy indentation.
#. Second item,
   with normal indentation.
");
(w "
Before the blockquote:

> The blockquote

After the blockquote
", w "
Before the blockquote:

    The blockquote

After the blockquote
");
(w "
# Heading 1

## Heading 2

### Heading 3

#### Heading 4

##### Heading 5

###### Heading 6
", w "
Heading 1
#########

Heading 2
*********

Heading 3
=========

Heading 4
---------

Heading 5
^^^^^^^^^

Heading 6
""""""""""""""""""
");
(w "
Start of first paragraph that
continues on a new line

This is the second paragraph
", w "
Start of first paragraph that
continues on a new line

This is the second paragraph
")
].
Example rst_examples_ok : map rst_ok rst_examples = repeat true 13.
Proof. vm_compute. reflexivity. Qed.

Definition unit_examples : list (str * str) := [
(w "*hello!*", w "<p><em>hello!</em></p>
");
(w "<div>†</div>
", w "<div>†</div>
");
(w ">     sometext
>

", w "<blockquote>
<pre><code>sometext
</code></pre>
</blockquote>
");
(w "[\\\\\\\\\\\\\\\\\\\\\\\\\\\\\\\\\\\\\\\\\\\\\\\\\\\\\\\\\\\\\\\\\\\\\\\\\\\\\\\\\\\\\\\\\\\\\\\\\\\\\\\\\\\\\\\\\\\\\\\\\\\\\\\\\\\\\\\\\\\\\\\\\\\\\\\\\\\\\\\\\\\\\\\\\\\\\\\\\\\\\\\\\\\\\\\\\\\\\\\\
", w "<p>[\\\\\\\\\\\\\\\\\\\\\\\\\\\\\\\\\\\\\\\\\\\\\\\\\\\\\\\\\\\\\\\\\\\\\\\\\\\\\\\\\\\\\\\\\\\\\\\\\\\\</p>
");
(w "[]([]([]([]([]([]([]([]([]([]([]([]([]([]([]([]([]([]([]([]([]([]([]([]([]([]([]([]([]([]([]([]([]([]([]([]([]([]([]([]([]([]([]([]([]([]([]([]([]([]([]([]([]([]([]([]([]([]([]([]([]([]([]([]([]([]([]([]([]([]([]([]([]([]([]([]([]([]([]([]([]([]([]([]([]([]([]([]([]([]([]([]([]([]([]([]([]([]([]([]([]([]([]([]([]([]([]([]([]([]([]([]([]([]([]([]([]([]([]([]([]([]([]([]([]([]([]([]([]([]([]([]([]([]([]([]([]([]([]([]([]([]([]([]([]([]([]([]([]([]([]([]([]([]([]([]([]([]([]([]([]([]([]([]([]([]([]([]([]([]([]([]([]([]([]([]([]([]([]([]([]([]([]([]([]([]([]([]([]([]([]([]([]([]([]([]([]([]([]([](
", w "<p>[]([]([]([]([]([]([]([]([]([]([]([]([]([]([]([]([]([]([]([]([]([]([]([]([]([]([]([]([]([]([]([]([]([]([]([]([]([]([]([]([]([]([]([]([]([]([]([]([]([]([]([]([]([]([]([]([]([]([]([]([]([]([]([]([]([]([]([]([]([]([]([]([]([]([]([]([]([]([]([]([]([]([]([]([]([]([]([]([]([]([]([]([]([]([]([]([]([]([]([]([]([]([]([]([]([]([]([]([]([]([]([]([]([]([]([]([]([]([]([]([]([]([]([]([]([]([]([]([]([]([]([]([]([]([]([]([]([]([]([]([]([]([]([]([]([]([]([]([]([]([]([]([]([]([]([]([]([]([]([]([]([]([]([]([]([]([]([]([]([]([]([]([]([]([]([]([]([]([]([]([]([]([]([]([]([]([]([]([]([]([]([]([]([]([]([]([]([]([]([](</p>
")
].
Example unit_examples_ok : map html_ok unit_examples = repeat true 5.
Proof. vm_compute. reflexivity. Qed.

Example smart_example_ok : smart_ok (w "a - b -- c --- d ---- e ----- f", w "<p>a - b – c — d –– e —– f</p>
") = true.
Proof. vm_compute. reflexivity. Qed.
