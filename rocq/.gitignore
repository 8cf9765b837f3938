.lia.cache
.nia.cache
*.vo
*.vos
*.vok
*.glob
.*.aux
Makefile
Makefile.conf
.Makefile.d
