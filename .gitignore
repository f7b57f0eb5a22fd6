*.vo
*.vok
*.vos
*.glob
*.aux
.lia.cache
.nia.cache
.coqdeps.d
.Makefile.d
Makefile.conf
rocq/Makefile
__pycache__/
.nra.cache
