*.vo
*.vos
*.vok
*.glob
*.aux
.*.aux
Makefile
Makefile.conf
.Makefile.d
.coqdeps.d
.lia.cache
.nia.cache
__pycache__/
